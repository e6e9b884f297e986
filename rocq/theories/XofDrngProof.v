From Verif Require Import Bytes Words SpongeSpec Fips202 Sha3Model KeccakBytes Sha3Top HashIface KmacSpec KmacModel
  KmacProof AsconSpec AsconModel AsconPerm AsconProof DrbgSpec XofDrngSpec XofDrngModel.

Lemma chunk_sizes_0 : forall c, chunk_sizes c 0 = [].
Proof. intros [|c]; [reflexivity|]. unfold chunk_sizes. rewrite Nat.div_0_l, Nat.mod_0_l by lia. reflexivity. Qed.
Lemma chunk_sizes_S : forall c n, (0 < c)%nat -> (0 < n)%nat ->
  chunk_sizes c n = Nat.min n c :: chunk_sizes c (n - Nat.min n c).
Proof.
  intros c n Hc Hn. unfold chunk_sizes. destruct (Nat.le_gt_cases c n) as [H|H].
  - rewrite Nat.min_r by lia. remember (n - c)%nat as m. assert (n = m + 1 * c)%nat by lia. subst n.
    rewrite Nat.div_add, Nat.mod_add by lia. rewrite Nat.add_1_r. reflexivity.
  - rewrite Nat.min_l by lia. rewrite Nat.div_small, Nat.mod_small by lia.
    rewrite (proj2 (Nat.eqb_neq n 0)) by lia. rewrite Nat.sub_diag. rewrite Nat.div_0_l, Nat.mod_0_l by lia.
    reflexivity.
Qed.

Lemma drng_encode_ok : forall n alpha S, (length alpha <= 84)%nat -> 0 <= n <= 2 ->
  S ++ concat (drng_encode n alpha) = ENCODE S alpha n.
Proof.
  intros n alpha S Ha Hn. unfold drng_encode, ENCODE. rewrite firstn_all2 by lia. cbn [concat].
  rewrite app_nil_r. unfold u8, trunc. rewrite Z.mod_small by lia. reflexivity.
Qed.
Lemma bytes_ENCODE : forall n alpha S, bytes alpha -> bytes S -> (length alpha <= 84)%nat -> 0 <= n <= 2 -> bytes (ENCODE S alpha n).
Proof.
  intros. unfold ENCODE. apply bytes_app; auto. apply bytes_app; auto.
  constructor; [unfold byte; lia|constructor].
Qed.
Lemma bytes_drng_encode : forall n alpha, bytes alpha -> Forall bytes (drng_encode n alpha).
Proof.
  intros n alpha H. unfold drng_encode. constructor; [apply bytes_firstn; exact H|].
  constructor; [|constructor]. constructor; [|constructor]. unfold u8, trunc, byte. apply Z.mod_pos_bound. lia.
Qed.
Lemma drng_encode_length : forall n alpha, (length (concat (drng_encode n alpha)) <= 85)%nat.
Proof.
  intros. unfold drng_encode. cbn [concat]. rewrite app_nil_r, app_length, firstn_length. cbn [length]. lia.
Qed.

(** Injectivity of the encoding given the length of the seed is irrelevant: the last byte determines
    n and |alpha|. *)
Lemma ENCODE_inj : forall S alpha n S' alpha' n', (length alpha <= 84)%nat -> (length alpha' <= 84)%nat ->
  0 <= n <= 2 -> 0 <= n' <= 2 -> ENCODE S alpha n = ENCODE S' alpha' n' -> S = S' /\ alpha = alpha' /\ n = n'.
Proof.
  intros S alpha n S' alpha' n' Ha Ha' Hn Hn' H. unfold ENCODE in H. rewrite !app_assoc in H.
  apply app_inj_tail in H. destruct H as [H E].
  assert (n = n' /\ length alpha = length alpha') as [-> L] by lia.
  assert (length S = length S') by (apply (f_equal (@length Z)) in H; rewrite !app_length in H; lia).
  apply app_inj_1 in H; auto. destruct H; auto.
Qed.

Section Generic.
  Variable one : list Z -> list Z -> nat -> list Z * list Z.
  Variable seed : xdst -> list Z -> list Z -> Z * xdst.
  Variable SEED : option (list Z) -> list Z -> list Z -> list Z.
  Variable GEN : list Z -> list Z -> nat -> list Z.
  Variables k chunk : nat.
  Variable okg : list Z -> nat -> Prop.
  Variable oks : list Z -> list Z -> Prop.
  Definition gkey (key : list Z) : Prop := length key = k /\ bytes key.
  Hypothesis Hch : (0 < chunk)%nat.
  Hypothesis Hone : forall key alpha n, gkey key -> bytes alpha -> (length alpha <= 84)%nat -> okg alpha n ->
    one key alpha n = (firstn k (GEN key alpha (k + n)), skipn k (GEN key alpha (k + n))).
  Hypothesis HGEN : forall key alpha n, gkey key -> bytes alpha -> (length alpha <= 84)%nat ->
    length (GEN key alpha n) = n /\ bytes (GEN key alpha n).

  Lemma gen_loop_ok : forall fuel key alpha buf, (length buf <= fuel)%nat -> gkey key -> bytes alpha ->
    (length alpha <= 84)%nat -> Forall (okg alpha) (chunk_sizes chunk (length buf)) ->
    drng_gen_loop one chunk fuel key alpha buf = gen_chunks GEN k key alpha (chunk_sizes chunk (length buf)) /\
    gkey (snd (drng_gen_loop one chunk fuel key alpha buf)).
  Proof.
    induction fuel as [|f IH]; intros key alpha buf Hl Hk Ha Hla Hok.
    - destruct buf; [|cbn in Hl; lia]. cbn [length drng_gen_loop snd]. rewrite chunk_sizes_0. split; [reflexivity|exact Hk].
    - cbn [drng_gen_loop]. destruct (Nat.eqb_spec (length buf) 0) as [E|E].
      + destruct buf; [|discriminate]. cbn [length snd]. rewrite chunk_sizes_0. split; [reflexivity|exact Hk].
      + rewrite chunk_sizes_S in Hok |- * by lia. inversion Hok as [|? ? Hok1 Hok2]; subst.
        set (t := Nat.min (length buf) chunk) in *. assert (0 < t <= length buf)%nat by lia.
        rewrite Hone by auto. destruct (HGEN key alpha (k + t) Hk Ha Hla) as [L B].
        assert (K1 : gkey (firstn k (GEN key alpha (k + t)))).
        { split; [rewrite firstn_length; lia|apply bytes_firstn; exact B]. }
        assert (L2 : length (skipn t buf) = (length buf - t)%nat) by (rewrite skipn_length; lia).
        specialize (IH (firstn k (GEN key alpha (k + t))) alpha (skipn t buf)).
        rewrite L2 in IH. destruct IH as [E1 E2]; auto; [lia|].
        cbn [gen_chunks]. rewrite <- E1.
        destruct (drng_gen_loop one chunk f _ alpha (skipn t buf)) as [b' k'] eqn:EE.
        cbn [snd] in *. split; [|exact E2].
        rewrite (skipn_all2 (n := length (skipn k (GEN key alpha (k + t)))) (firstn t buf))
          by (rewrite firstn_length, skipn_length; lia).
        rewrite app_nil_r. reflexivity.
  Qed.

  Definition xrel (s : xdst) (o : option (list Z)) : Prop :=
    match o with
    | None => xd_seeded s = false
    | Some key => xd_seeded s = true /\ xd_key s = key /\ gkey key
    end.

  Definition xreq_good (r : drbg_req) : Prop :=
    match r with
    | RSeed e p => bytes e /\ bytes p /\ (length p <= 84)%nat /\ Z.of_nat (length e) < 2 ^ 60 /\ oks e p
    | RGen a n => bytes a /\ (length a <= 84)%nat /\ Forall (okg a) (chunk_sizes chunk n)
    end.
  Hypothesis Hseed : forall s o e p, xrel s o -> xreq_good (RSeed e p) ->
    seed s e p = (0, mkXD true (SEED o e p)) /\ gkey (SEED o e p).
  Variable fill : nat -> list Z.
  Hypothesis Hfill : forall n, length (fill n) = n.

  Notation mstep := (xd_req seed (drng_generate one chunk) fill).
  Notation sstep := (XD_step SEED GEN k chunk).

  Lemma xd_step_ok : forall s key r, xrel s (Some key) -> xreq_good r ->
    exists rc o s' key', mstep s r = (rc, o, s') /\ sstep (Some key) r = (rc, o, Some key') /\ xrel s' (Some key').
  Proof.
    intros s key r HR Hg. destruct r as [e p|a n]; cbn [xd_req XD_step].
    - destruct (Hseed s (Some key) e p HR Hg) as [-> K]. do 4 eexists. split; [reflexivity|].
      split; [reflexivity|]. repeat split; auto; apply K.
    - destruct HR as (H1 & H2 & HK). destruct Hg as (Ha & Hl & Hok).
      unfold drng_generate. rewrite H2.
      destruct (gen_loop_ok (length (fill n)) key a (fill n)) as [E1 E2]; auto; [rewrite Hfill; auto|].
      rewrite (Hfill n) in E1, E2 |- *. rewrite <- E1.
      destruct (drng_gen_loop one chunk n key a (fill n)) as [o k'].
      do 4 eexists. split; [reflexivity|]. split; [reflexivity|]. cbn [snd] in E2. repeat split; auto; apply E2.
  Qed.

  Lemma xd_run_ok : forall rs s key, xrel s (Some key) -> Forall xreq_good rs ->
    exists key', run_reqs sstep (Some key) rs = (fst (run_reqs mstep s rs), Some key') /\
      xrel (snd (run_reqs mstep s rs)) (Some key').
  Proof.
    induction rs as [|r rs IH]; intros s key HR Hg.
    - exists key. auto.
    - inversion Hg; subst. cbn [run_reqs].
      destruct (xd_step_ok s key r HR ltac:(assumption)) as (rc & o & s' & k' & -> & -> & R').
      destruct (IH s' k' R' ltac:(assumption)) as (k'' & E & R''). rewrite E.
      destruct (run_reqs mstep s' rs). exists k''. auto.
  Qed.

  Lemma xd_ok : forall s e p rs, xd_seeded s = false -> xreq_good (RSeed e p) -> Forall xreq_good rs ->
    let m := run_reqs mstep s (RSeed e p :: rs) in
    run_reqs sstep None (RSeed e p :: rs) = (fst m, Some (xd_key (snd m))) /\ gkey (xd_key (snd m)).
  Proof.
    intros s e p rs Hs He Hg. cbn zeta. cbn [run_reqs xd_req XD_step].
    destruct (Hseed s None e p Hs He) as [-> K].
    destruct (xd_run_ok rs (mkXD true (SEED None e p)) (SEED None e p)) as (k' & E & R); auto.
    { repeat split; auto; apply K. }
    rewrite E. destruct (run_reqs mstep _ rs) as [l s2]. cbn [fst snd] in *.
    destruct R as (_ & -> & K2). auto.
  Qed.
End Generic.

(** ** XDRBG over any XOF *)
Section Xd.
  Variable x : xofops.
  Variable XOF : list Z -> nat -> list Z.
  Variable safe : list (list Z) -> Prop.
  Variables k chunk : nat.
  Hypothesis Hch : (0 < chunk)%nat.
  Fixpoint xo_reads (c : xctx x) (ns : list nat) : list (list Z) :=
    match ns with [] => [] | n :: ns' => let '(o, c) := xo_read x c n in o :: xo_reads c ns' end.
  Hypothesis Hxof : forall ms ns, Forall bytes ms -> Z.of_nat (length (concat ms)) < 2 ^ 61 -> safe ms ->
    concat (xo_reads (xo_updates x (xo_init x) ms) ns) = XOF (concat ms) (list_sum ns) /\
    map (@length Z) (xo_reads (xo_updates x (xo_init x) ms) ns) = ns.
  Hypothesis HXb : forall m n, bytes m -> bytes (XOF m n) /\ length (XOF m n) = n.
  Hypothesis Hk : (k <= 64)%nat.

  Definition xokg (alpha : list Z) (n : nat) : Prop := forall V, length V = k -> safe (V :: drng_encode 2 alpha).
  Definition xoks (e p : list Z) : Prop :=
    safe (e :: drng_encode 0 p) /\ forall V, length V = k -> safe (V :: e :: drng_encode 1 p).

  Lemma xdrbg_one_ok : forall key alpha n, gkey k key -> bytes alpha -> (length alpha <= 84)%nat -> xokg alpha n ->
    xdrbg_one x k key alpha n = (firstn k (XD_GEN XOF key alpha (k + n)), skipn k (XD_GEN XOF key alpha (k + n))).
  Proof.
    intros key alpha n [Lk Bk] Ba La Hs. unfold xdrbg_one, XD_GEN.
    pose proof (drng_encode_length 2 alpha) as DL.
    destruct (Hxof (key :: drng_encode 2 alpha) [k; n]) as [E1 E2].
    - constructor; auto using bytes_drng_encode.
    - cbn [concat]. rewrite app_length. lia.
    - apply Hs. exact Lk.
    - cbn [xo_reads] in E1, E2. destruct (xo_read x _ k) as [v c]. destruct (xo_read x c n) as [o c'].
      cbn [concat map] in E1, E2. rewrite drng_encode_ok in E1 by (auto; lia).
      cbn [list_sum fold_right] in E1. rewrite Nat.add_0_r, app_nil_r in E1. injection E2 as L1 L2.
      rewrite <- E1. rewrite <- L1 at 1 2. rewrite firstn_app, Nat.sub_diag, firstn_all, skipn_app, Nat.sub_diag, skipn_all.
      cbn [firstn skipn app]. rewrite app_nil_r. reflexivity.
  Qed.

  Lemma xd_gen_ok : forall key alpha n, gkey k key -> bytes alpha -> (length alpha <= 84)%nat ->
    length (XD_GEN XOF key alpha n) = n /\ bytes (XD_GEN XOF key alpha n).
  Proof.
    intros key alpha n [Lk Bk] Ba La. unfold XD_GEN.
    destruct (HXb (ENCODE key alpha 2) n); auto. apply bytes_ENCODE; auto; lia.
  Qed.

  Lemma xdrbg_seed_ok : forall s o e p, xrel k s o -> xreq_good chunk xokg xoks (RSeed e p) ->
    xdrbg_seed x k s e p = (0, mkXD true (XD_SEED XOF k o e p)) /\ gkey k (XD_SEED XOF k o e p).
  Proof.
    intros s o e p HR (Be & Bp & Lp & Le & S0 & S1). unfold xdrbg_seed, XD_SEED.
    assert (R : forall ms, Forall bytes ms -> Z.of_nat (length (concat ms)) < 2 ^ 61 -> safe ms ->
      fst (xo_read x (xo_updates x (xo_init x) ms) k) = XOF (concat ms) k).
    { intros ms B L Sf. destruct (Hxof ms [k] B L Sf) as [E _]. cbn [xo_reads] in E.
      destruct (xo_read x _ k) as [v c]. cbn in E |- *. rewrite app_nil_r, Nat.add_0_r in E. exact E. }
    assert (DL : forall n, (length (concat (drng_encode n p)) <= 85)%nat) by (intros; apply drng_encode_length).
    destruct o as [key|]; cbn [xrel] in HR.
    - destruct HR as (-> & -> & Lk & Bk). rewrite R.
      + cbn [concat]. rewrite app_assoc. rewrite drng_encode_ok by (auto; lia). split; [reflexivity|].
        destruct (HXb (ENCODE (key ++ e) p 1) k); [|split; auto]. apply bytes_ENCODE; auto; try lia. apply bytes_app; auto.
      + constructor; auto. constructor; auto using bytes_drng_encode.
      + cbn [concat]. rewrite !app_length. specialize (DL 1). lia.
      + apply S1. exact Lk.
    - rewrite HR. rewrite R.
      + cbn [concat]. rewrite drng_encode_ok by (auto; lia). split; [reflexivity|].
        destruct (HXb (ENCODE e p 0) k); [|split; auto]. apply bytes_ENCODE; auto; lia.
      + constructor; auto using bytes_drng_encode.
      + cbn [concat]. rewrite !app_length. specialize (DL 0). lia.
      + exact S0.
  Qed.

  Lemma xdrbg_ok : forall fill s e p rs, (forall n, length (fill n) = n) -> xd_seeded s = false ->
    xreq_good chunk xokg xoks (RSeed e p) -> Forall (xreq_good chunk xokg xoks) rs ->
    let m := run_reqs (xd_req (xdrbg_seed x k) (xdrbg_generate x k chunk) fill) s (RSeed e p :: rs) in
    run_reqs (XD_step (XD_SEED XOF k) (XD_GEN XOF) k chunk) None (RSeed e p :: rs) =
      (fst m, Some (xd_key (snd m))).
  Proof.
    intros fill s e p rs Hf Hs He Hg. apply (xd_ok (xdrbg_one x k) (xdrbg_seed x k) _ _ _ _ xokg xoks); auto.
    - apply xdrbg_one_ok.
    - apply xd_gen_ok.
    - apply xdrbg_seed_ok.
  Qed.
End Xd.

(** ** SHAKE256 *)
Lemma xo_reads_shake : forall ns c, xo_reads shake256_xo c ns = fst (xof_reads permB c ns).
Proof.
  induction ns as [|n ns IH]; intros c; [reflexivity|].
  cbn [xo_reads xof_reads]. change (xo_read shake256_xo c n) with (xof_read permB c n).
  destruct (xof_read permB c n) as [o c1]. rewrite IH. destruct (xof_reads permB c1 ns). reflexivity.
Qed.

Lemma shake_xo_ok : forall ms ns, Forall bytes ms -> Z.of_nat (length (concat ms)) < 2 ^ 61 -> True ->
  concat (xo_reads shake256_xo (xo_updates shake256_xo (xo_init shake256_xo) ms) ns) = SHAKE256 (concat ms) (list_sum ns) /\
  map (@length Z) (xo_reads shake256_xo (xo_updates shake256_xo (xo_init shake256_xo) ms) ns) = ns.
Proof.
  intros ms ns Hb Hl _. rewrite xo_reads_shake.
  destruct (sha3_family_reads alg_shake256 ms ns) as [E1 E2]; auto; [cbn; auto 10|lia].
Qed.

Lemma keccak_c_ok : forall cap suf m p n, (cap < 200)%nat -> bytes m -> byte suf ->
  bytes (keccak_c cap suf m p n) /\ length (keccak_c cap suf m p n) = n.
Proof.
  intros cap suf m p n Hc Hm Hs. unfold keccak_c. split; [apply sponge_bytes; auto; lia|].
  unfold sponge. rewrite map_length, seq_length. reflexivity.
Qed.

(** ** Ascon XOF *)
Lemma xo_reads_ascon : forall ns c, xo_reads ascon_xo c ns = fst (ascon_xof_reads asconB c ns).
Proof.
  induction ns as [|n ns IH]; intros c; [reflexivity|].
  cbn [xo_reads ascon_xof_reads]. change (xo_read ascon_xo c n) with (ascon_xof_read asconB c n).
  destruct (ascon_xof_read asconB c n) as [o c1]. rewrite IH. destruct (ascon_xof_reads asconB c1 ns). reflexivity.
Qed.

Lemma ascon_xo_ok : forall ms ns, Forall bytes ms -> Z.of_nat (length (concat ms)) < 2 ^ 61 -> safe_split 0 ms ->
  concat (xo_reads ascon_xo (xo_updates ascon_xo (xo_init ascon_xo) ms) ns) = ASCON_XOF128 (concat ms) (list_sum ns) /\
  map (@length Z) (xo_reads ascon_xo (xo_updates ascon_xo (xo_init ascon_xo) ms) ns) = ns.
Proof.
  intros ms ns Hb Hl Hs. rewrite xo_reads_ascon.
  destruct (asconxof_streaming ms ns) as [E1 E2]; auto. lia.
Qed.

Lemma ascon_hash_ok : forall m n, bytes m -> bytes (ASCON_XOF128 m n) /\ length (ASCON_XOF128 m n) = n.
Proof.
  intros m n Hm. unfold ASCON_XOF128.
  rewrite <- (out_asconB (bytes_of_words ascon_xof_state) 0x0000080000cc0003 m Hm st40_xof (proj2 init_states)).
  split; [|rewrite map_length, seq_length; reflexivity].
  unfold bytes. rewrite Forall_forall. intros z Hz. apply in_map_iff in Hz. destruct Hz as (q & <- & _).
  unfold out_byte. apply bytes_nth.
  destruct (absorb_asconB (full_chunks 8 (apad m)) (bytes_of_words ascon_xof_state)) as [_ B]; auto using st40_xof.
  { apply bytes_full_chunks, bytes_apad; auto. }
  apply (iter_asconB (q / 8) _ B).
Qed.

Lemma safe_gen32 : forall V alpha, length V = 32%nat -> (length alpha <= 84)%nat -> (length alpha mod 8 <> 7)%nat ->
  safe_split 0 (V :: drng_encode 2 alpha).
Proof.
  intros V alpha HV Hl Ha. unfold drng_encode. rewrite firstn_all2 by lia. cbn [safe_split length Nat.add].
  rewrite HV. split; [intros [H _]; apply H; reflexivity|]. split; [intros [H _]; apply H; reflexivity|].
  split; [|exact I]. intros [_ H]. apply Ha.
  replace (32 + length alpha)%nat with (length alpha + 4 * 8)%nat in H by lia.
  rewrite Nat.mod_add in H by lia. lia.
Qed.

(** ** cSHAKE *)
Lemma cSHAKE_ok : forall X p n N S, bytes X -> bytes N -> bytes S -> 8 * Z.of_nat (length N) < 2 ^ 64 ->
  8 * Z.of_nat (length S) < 2 ^ 64 -> bytes (cSHAKE 64 X p n N S) /\ length (cSHAKE 64 X p n N S) = n.
Proof.
  intros X p n N S HX HN HS LN LS.
  assert (HB : bytes (bytepad (encode_string N ++ encode_string S) (200 - 64) ++ X)).
  { apply bytes_app; auto. unfold bytepad. apply bytes_app; [|apply bytes_zeros].
    apply bytes_app; [apply bytes_left_encode; cbn; lia|]. apply bytes_app; apply bytes_encode_string; auto. }
  unfold cSHAKE. destruct N; [destruct S|]; apply keccak_c_ok; auto; try lia; unfold byte; lia.
Qed.

Lemma length_bytepad136 : forall x, (length (bytepad x 136) <= length x + 138)%nat.
Proof.
  intros x. unfold bytepad. change (Z.of_nat 136) with 136. rewrite app_length, app_length, length_zeros.
  change (length (left_encode 136)) with 2%nat.
  pose proof (Nat.mod_upper_bound (136 - (2 + length x) mod 136) 136 ltac:(lia)). lia.
Qed.
Lemma length_encode_string : forall s, 8 * Z.of_nat (length s) < 2 ^ 64 -> (length (encode_string s) <= length s + 9)%nat.
Proof.
  intros s H. unfold encode_string. rewrite app_length.
  pose proof (length_left_encode (8 * Z.of_nat (length s)) ltac:(lia)). lia.
Qed.

Lemma cs_reads : forall N S xs ns, bytes N -> bytes S -> Forall bytes xs -> Z.of_nat (length N) < 2 ^ 60 ->
  Z.of_nat (length S) < 2 ^ 60 -> Z.of_nat (length (concat xs)) < 2 ^ 61 ->
  let outs := fst (hh_reads (hh_updates (cshake_init permB cs_fresh N S) xs) ns) in
  concat outs = cSHAKE 64 (concat xs) 0 (list_sum ns) N S /\ map (@length Z) outs = ns.
Proof.
  intros N S xs ns HN HS Hx LN LS LX.
  apply (cshake_ok cs_fresh N S xs ns); auto; try (cbn; auto; fail); try lia.
  change (a_r (hc_alg cs_fresh)) with 136%nat. rewrite app_length.
  pose proof (length_bytepad136 (encode_string N ++ encode_string S)). rewrite app_length in H.
  pose proof (length_encode_string N ltac:(lia)). pose proof (length_encode_string S ltac:(lia)). lia.
Qed.

Lemma split_two : forall (a b T : list Z) k n, a ++ b = T -> length a = k -> length b = n -> (a, b) = (firstn k T, skipn k T).
Proof.
  intros a b T k n <- <- _. rewrite firstn_app, Nat.sub_diag, firstn_all, skipn_app, Nat.sub_diag, skipn_all.
  cbn [firstn skipn app]. rewrite app_nil_r. reflexivity.
Qed.

Lemma drng_encode_nil : forall n alpha, (length alpha <= 84)%nat -> 0 <= n <= 2 ->
  concat (drng_encode n alpha) = ENCODE [] alpha n.
Proof. intros. rewrite <- (drng_encode_ok n alpha []) by auto. reflexivity. Qed.
Lemma hh_ups_eq : forall h ms, hh_ups h ms = hh_updates h ms.
Proof. reflexivity. Qed.
Definition gk64 := gkey 64.
Lemma sum2 : forall a b, list_sum [a; b] = (a + b)%nat.
Proof. intros. cbn. lia. Qed.
Lemma hh_two : forall h k n T, concat (fst (hh_reads h [k; n])) = T -> map (@length Z) (fst (hh_reads h [k; n])) = [k; n] ->
  (let '(key, h) := hh_xof permB h k in let '(o, _) := hh_xof permB h n in (key, o)) = (firstn k T, skipn k T).
Proof.
  intros h k n T E1 E2. cbn [hh_reads] in E1, E2. destruct (hh_xof permB h k) as [v c]. destruct (hh_xof permB c n) as [o c'].
  cbn [fst concat map] in E1, E2. injection E2 as L1 L2. rewrite app_nil_r in E1.
  apply (split_two v o _ k n); auto.
Qed.
Lemma csdrng_one_ok : forall key alpha n, gk64 key -> bytes alpha -> (length alpha <= 84)%nat -> True ->
  csdrng_one key alpha n = (firstn 64 (CS_GEN key alpha (64 + n)), skipn 64 (CS_GEN key alpha (64 + n))).
Proof.
  intros key alpha n [Lk Bk] Ba La _. unfold csdrng_one. cbv zeta. rewrite hh_ups_eq.
  pose proof (drng_encode_length 2 alpha) as DL.
  pose proof (cs_reads str_cs_gen key (drng_encode 2 alpha) [64%nat; n]) as E. cbv zeta in E.
  assert (Bg : bytes str_cs_gen) by (repeat constructor; unfold byte; lia).
  specialize (E Bg Bk (bytes_drng_encode 2 alpha Ba)).
  assert (L1 : Z.of_nat (length str_cs_gen) < 2 ^ 60) by (cbn; lia).
  specialize (E L1 ltac:(lia) ltac:(lia)). destruct E as [E1 E2].
  rewrite drng_encode_nil in E1 by (auto; lia). rewrite sum2 in E1.
  exact (hh_two _ _ _ _ E1 E2).
Qed.

Lemma cs_gen_ok : forall key alpha n, gk64 key -> bytes alpha -> (length alpha <= 84)%nat ->
  length (CS_GEN key alpha n) = n /\ bytes (CS_GEN key alpha n).
Proof.
  intros key alpha n [Lk Bk] Ba La. unfold CS_GEN.
  assert (L1 : 8 * Z.of_nat (length str_cs_gen) < 2 ^ 64) by (cbn; lia).
  assert (L2 : 8 * Z.of_nat (length key) < 2 ^ 64) by lia.
  assert (Bg : bytes str_cs_gen) by (repeat constructor; unfold byte; lia).
  destruct (cSHAKE_ok (ENCODE [] alpha 2) 0 n str_cs_gen key
    (bytes_ENCODE 2 alpha [] Ba (Forall_nil _) La ltac:(lia)) Bg Bk L1 L2) as [G1 G2]. exact (conj G2 G1).
Qed.

Lemma hh_one : forall h k T, concat (fst (hh_reads h [k])) = T -> fst (hh_xof permB h k) = T.
Proof.
  intros h k T E. cbn [hh_reads] in E. destruct (hh_xof permB h k) as [v c]. cbn [fst concat] in E |- *.
  rewrite app_nil_r in E. exact E.
Qed.
Lemma sum1 : forall a, list_sum [a] = a.
Proof. intros. cbn. lia. Qed.

Lemma cs_seed_key : forall e p S n, bytes e -> bytes p -> (length p <= 84)%nat -> Z.of_nat (length e) < 2 ^ 60 ->
  bytes S -> (length S <= 64)%nat -> 0 <= n <= 2 ->
  fst (hh_xof permB (hh_updates (cshake_init permB cs_fresh str_cs_seed S) (e :: drng_encode n p)) 64) =
    cSHAKE 64 (ENCODE e p n) 0 64 str_cs_seed S /\ gkey 64 (cSHAKE 64 (ENCODE e p n) 0 64 str_cs_seed S).
Proof.
  intros e p S n Be Bp Lp Le BS LS Hn. pose proof (drng_encode_length n p) as DL.
  assert (Bs : bytes str_cs_seed) by (repeat constructor; unfold byte; lia). split.
  - pose proof (cs_reads str_cs_seed S (e :: drng_encode n p) [64%nat]) as E. cbv zeta in E.
    specialize (E Bs BS (Forall_cons _ Be (bytes_drng_encode n p Bp))).
    assert (L1 : Z.of_nat (length str_cs_seed) < 2 ^ 60) by (cbn; lia).
    assert (L2 : Z.of_nat (length (concat (e :: drng_encode n p))) < 2 ^ 61) by (cbn [concat]; rewrite app_length; lia).
    specialize (E L1 ltac:(lia) L2). destruct E as [E _].
    rewrite sum1 in E. change (concat (e :: drng_encode n p)) with (e ++ concat (drng_encode n p)) in E.
    rewrite drng_encode_ok in E by auto. exact (hh_one _ _ _ E).
  - assert (L1 : 8 * Z.of_nat (length str_cs_seed) < 2 ^ 64) by (cbn; lia).
    assert (L2 : 8 * Z.of_nat (length S) < 2 ^ 64) by lia.
    destruct (cSHAKE_ok (ENCODE e p n) 0 64 str_cs_seed S (bytes_ENCODE n p e Bp Be Lp Hn) Bs BS L1 L2) as [G1 G2].
    exact (conj G2 G1).
Qed.

Lemma csdrng_seed_ok : forall s o e p, xrel 64 s o -> xreq_good 208 (fun _ _ => True) (fun _ _ => True) (RSeed e p) ->
  csdrng_seed s e p = (0, mkXD true (CS_SEED o e p)) /\ gkey 64 (CS_SEED o e p).
Proof.
  intros s o e p HR (Be & Bp & Lp & Le & _). unfold csdrng_seed, CS_SEED. cbv zeta. rewrite hh_ups_eq.
  destruct o as [key|]; cbn [xrel] in HR.
  - destruct HR as (H1 & H2 & Lk & Bk). rewrite H1, H2.
    destruct (cs_seed_key e p key 1 Be Bp Lp Le Bk ltac:(lia) ltac:(lia)) as [E K]. rewrite E. exact (conj eq_refl K).
  - rewrite HR. destruct (cs_seed_key e p [] 0 Be Bp Lp Le (Forall_nil _) (Nat.le_0_l _) ltac:(lia)) as [E K].
    rewrite E. exact (conj eq_refl K).
Qed.

Lemma csdrng_ok : forall fill s e p rs, (forall n, length (fill n) = n) -> xd_seeded s = false ->
  let good := xreq_good 208 (fun _ _ => True) (fun _ _ => True) in
  good (RSeed e p) -> Forall good rs ->
  let m := run_reqs (xd_req csdrng_seed csdrng_generate fill) s (RSeed e p :: rs) in
  run_reqs (XD_step CS_SEED CS_GEN 64 208) None (RSeed e p :: rs) = (fst m, Some (xd_key (snd m))).
Proof.
  intros fill s e p rs Hf Hs good He Hg.
  apply (xd_ok csdrng_one csdrng_seed CS_SEED CS_GEN 64 208 (fun _ _ => True) (fun _ _ => True)); auto; try lia.
  - apply csdrng_one_ok.
  - apply cs_gen_ok.
  - apply csdrng_seed_ok.
Qed.

(** ** KMAC *)
Definition long_enough (_ : list Z) (n : nat) : Prop := (4 <= n)%nat.

Lemma km_reads : forall K S xs ns, bytes K -> bytes S -> Forall bytes xs -> Z.of_nat (length K) < 2 ^ 60 ->
  Z.of_nat (length S) < 2 ^ 60 -> Z.of_nat (length (concat xs)) < 2 ^ 61 ->
  let outs := fst (kmac_xof_reads permB (kmac_updates permB (kmac_init permB km_fresh K S) xs) ns) in
  concat outs = KMACXOF 64 K (concat xs) 0 (list_sum ns) S /\ map (@length Z) outs = ns.
Proof.
  intros K S xs ns HK HS Hx LK LS LX.
  apply (kmacxof_ok km_fresh K S xs ns); auto; try (cbn; auto; fail); try lia.
  change (a_r (hc_alg (km_h km_fresh))) with 136%nat. unfold kmac_prefix.
  change (a_r (hc_alg (km_h km_fresh))) with 136%nat. rewrite !app_length.
  pose proof (length_bytepad136 (encode_string KMAC_N ++ encode_string S)). rewrite app_length in H.
  pose proof (length_bytepad136 (encode_string K)).
  pose proof (length_encode_string KMAC_N ltac:(cbn; lia)). pose proof (length_encode_string K ltac:(lia)).
  pose proof (length_encode_string S ltac:(lia)). change (length KMAC_N) with 4%nat in *. lia.
Qed.

Lemma KMACXOF_ok : forall K X p n S, bytes K -> bytes X -> bytes S -> 8 * Z.of_nat (length K) < 2 ^ 64 ->
  8 * Z.of_nat (length S) < 2 ^ 64 -> bytes (KMACXOF 64 K X p n S) /\ length (KMACXOF 64 K X p n S) = n.
Proof.
  intros K X p n S HK HX HS LK LS. unfold KMACXOF. apply cSHAKE_ok; auto; try (cbn; lia).
  - apply bytes_app; [|apply bytes_app; auto; apply bytes_right_encode; lia].
    unfold bytepad. apply bytes_app; [|apply bytes_zeros].
    apply bytes_app; [apply bytes_left_encode; cbn; lia|]. apply bytes_encode_string; auto.
  - repeat constructor; unfold byte; lia.
Qed.

Lemma km_two : forall c k n T, (4 <= k)%nat -> (4 <= n)%nat -> concat (fst (kmac_xof_reads permB c [k; n])) = T ->
  map (@length Z) (fst (kmac_xof_reads permB c [k; n])) = [k; n] ->
  (let '(key, c) := kmac_final_xof permB c k in let '(o, _) := kmac_final_xof permB c n in (key, o)) = (firstn k T, skipn k T).
Proof.
  intros c k n T Hk Hn E1 E2. unfold kmac_final_xof. rewrite (proj2 (Nat.leb_le 4 k) Hk), (proj2 (Nat.leb_le 4 n) Hn).
  cbn [kmac_xof_reads] in E1, E2. destruct (kmac_final_xof_internal permB c k) as [v c1].
  destruct (kmac_final_xof_internal permB c1 n) as [o c2].
  cbn [fst concat map] in E1, E2. injection E2 as L1 L2. rewrite app_nil_r in E1.
  apply (split_two v o _ k n); auto.
Qed.

Lemma kmdrng_one_ok : forall key alpha n, gk64 key -> bytes alpha -> (length alpha <= 84)%nat -> long_enough alpha n ->
  kmdrng_one key alpha n = (firstn 64 (KM_GEN key alpha (64 + n)), skipn 64 (KM_GEN key alpha (64 + n))).
Proof.
  intros key alpha n [Lk Bk] Ba La Hn. unfold kmdrng_one. cbv zeta.
  pose proof (drng_encode_length 2 alpha) as DL.
  pose proof (km_reads key str_km_gen (drng_encode 2 alpha) [64%nat; n]) as E. cbv zeta in E.
  assert (Bg : bytes str_km_gen) by (repeat constructor; unfold byte; lia).
  specialize (E Bk Bg (bytes_drng_encode 2 alpha Ba)).
  assert (L1 : Z.of_nat (length str_km_gen) < 2 ^ 60) by (cbn; lia).
  specialize (E ltac:(lia) L1 ltac:(lia)). destruct E as [E1 E2].
  rewrite drng_encode_nil in E1 by (auto; lia). rewrite sum2 in E1.
  assert (L64 : (4 <= 64)%nat) by lia.
  exact (km_two _ _ _ _ L64 Hn E1 E2).
Qed.

Lemma km_gen_ok : forall key alpha n, gk64 key -> bytes alpha -> (length alpha <= 84)%nat ->
  length (KM_GEN key alpha n) = n /\ bytes (KM_GEN key alpha n).
Proof.
  intros key alpha n [Lk Bk] Ba La. unfold KM_GEN.
  assert (L1 : 8 * Z.of_nat (length str_km_gen) < 2 ^ 64) by (cbn; lia).
  assert (L2 : 8 * Z.of_nat (length key) < 2 ^ 64) by lia.
  assert (Bg : bytes str_km_gen) by (repeat constructor; unfold byte; lia).
  destruct (KMACXOF_ok key (ENCODE [] alpha 2) 0 n str_km_gen Bk
    (bytes_ENCODE 2 alpha [] Ba (Forall_nil _) La ltac:(lia)) Bg L2 L1) as [G1 G2]. exact (conj G2 G1).
Qed.

Lemma km_one : forall c k T, (4 <= k)%nat -> concat (fst (kmac_xof_reads permB c [k])) = T -> fst (kmac_final_xof permB c k) = T.
Proof.
  intros c k T Hk E. unfold kmac_final_xof. rewrite (proj2 (Nat.leb_le 4 k) Hk). cbn [kmac_xof_reads] in E.
  destruct (kmac_final_xof_internal permB c k) as [v c1]. cbn [fst concat] in E |- *.
  rewrite app_nil_r in E. exact E.
Qed.

Lemma km_seed_key : forall e p K n, bytes e -> bytes p -> (length p <= 84)%nat -> Z.of_nat (length e) < 2 ^ 60 ->
  bytes K -> (length K <= 64)%nat -> 0 <= n <= 2 ->
  fst (kmac_final_xof permB (kmac_updates permB (kmac_init permB km_fresh K str_km_seed) (e :: drng_encode n p)) 64) =
    KMACXOF 64 K (ENCODE e p n) 0 64 str_km_seed /\ gkey 64 (KMACXOF 64 K (ENCODE e p n) 0 64 str_km_seed).
Proof.
  intros e p K n Be Bp Lp Le BK LK Hn. pose proof (drng_encode_length n p) as DL.
  assert (Bs : bytes str_km_seed) by (repeat constructor; unfold byte; lia). split.
  - pose proof (km_reads K str_km_seed (e :: drng_encode n p) [64%nat]) as E. cbv zeta in E.
    specialize (E BK Bs (Forall_cons _ Be (bytes_drng_encode n p Bp))).
    assert (L1 : Z.of_nat (length str_km_seed) < 2 ^ 60) by (cbn; lia).
    assert (L2 : Z.of_nat (length (concat (e :: drng_encode n p))) < 2 ^ 61) by (cbn [concat]; rewrite app_length; lia).
    specialize (E ltac:(lia) L1 L2). destruct E as [E _].
    rewrite sum1 in E. change (concat (e :: drng_encode n p)) with (e ++ concat (drng_encode n p)) in E.
    rewrite drng_encode_ok in E by auto. assert (L64 : (4 <= 64)%nat) by lia. exact (km_one _ _ _ L64 E).
  - assert (L1 : 8 * Z.of_nat (length str_km_seed) < 2 ^ 64) by (cbn; lia).
    assert (L2 : 8 * Z.of_nat (length K) < 2 ^ 64) by lia.
    destruct (KMACXOF_ok K (ENCODE e p n) 0 64 str_km_seed BK (bytes_ENCODE n p e Bp Be Lp Hn) Bs L2 L1) as [G1 G2].
    exact (conj G2 G1).
Qed.

Lemma kmdrng_seed_ok : forall s o e p, xrel 64 s o -> xreq_good 208 long_enough (fun _ _ => True) (RSeed e p) ->
  kmdrng_seed s e p = (0, mkXD true (KM_SEED o e p)) /\ gkey 64 (KM_SEED o e p).
Proof.
  intros s o e p HR (Be & Bp & Lp & Le & _). unfold kmdrng_seed, KM_SEED. cbv zeta.
  destruct o as [key|]; cbn [xrel] in HR.
  - destruct HR as (H1 & H2 & Lk & Bk). rewrite H1, H2.
    destruct (km_seed_key e p key 1 Be Bp Lp Le Bk ltac:(lia) ltac:(lia)) as [E K]. rewrite E. exact (conj eq_refl K).
  - rewrite HR. destruct (km_seed_key e p [] 0 Be Bp Lp Le (Forall_nil _) (Nat.le_0_l _) ltac:(lia)) as [E K].
    rewrite E. exact (conj eq_refl K).
Qed.

Lemma kmdrng_ok : forall fill s e p rs, (forall n, length (fill n) = n) -> xd_seeded s = false ->
  let good := xreq_good 208 long_enough (fun _ _ => True) in
  good (RSeed e p) -> Forall good rs ->
  let m := run_reqs (xd_req kmdrng_seed kmdrng_generate fill) s (RSeed e p :: rs) in
  run_reqs (XD_step KM_SEED KM_GEN 64 208) None (RSeed e p :: rs) = (fst m, Some (xd_key (snd m))).
Proof.
  intros fill s e p rs Hf Hs good He Hg.
  apply (xd_ok kmdrng_one kmdrng_seed KM_SEED KM_GEN 64 208 long_enough (fun _ _ => True)); auto; try lia.
  - apply kmdrng_one_ok.
  - apply km_gen_ok.
  - apply kmdrng_seed_ok.
Qed.

(** chunk sizes in terms of the request size *)
Lemma chunk_sizes_long : forall n, ~ (1 <= n mod 208 <= 3)%nat -> Forall (long_enough []) (chunk_sizes 208 n).
Proof.
  intros n H. unfold chunk_sizes. apply Forall_app. split.
  - apply Forall_forall. intros x Hx. apply repeat_spec in Hx. subst. unfold long_enough. lia.
  - destruct (Nat.eqb_spec (n mod 208) 0); constructor; [unfold long_enough; lia|constructor].
Qed.

(** The last piece of 1, 2 or 3 bytes is not written, in any state. *)
Lemma kmdrng_tail : forall s alpha buf t, (1 <= t <= 3)%nat -> length buf = t ->
  exists s', kmdrng_generate s alpha buf = (0, buf, s').
Proof.
  intros s alpha buf t Ht Hl. unfold kmdrng_generate, drng_generate.
  assert (E : exists key, drng_gen_loop kmdrng_one 208 (length buf) (xd_key s) alpha buf = (buf, key)).
  { rewrite Hl. destruct t as [|f]; [lia|]. cbn [drng_gen_loop].
    replace (length buf =? 0)%nat with false by (symmetry; apply Nat.eqb_neq; lia).
    replace (Nat.min (length buf) 208) with (length buf) by lia.
    unfold kmdrng_one at 1. rewrite Hl.
    set (c := kmac_updates permB _ _). clearbody c.
    destruct (kmac_final_xof permB c 64) as [key c1]. unfold kmac_final_xof.
    replace (4 <=? S f)%nat with false by (symmetry; apply Nat.leb_gt; lia).
    rewrite <- Hl. rewrite skipn_all, firstn_all. cbn [length skipn app]. destruct f; cbn [drng_gen_loop length Nat.eqb];
    rewrite app_nil_r; eauto. }
  destruct E as [key ->]. eauto.
Qed.
