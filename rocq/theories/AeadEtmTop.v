From Verif Require Import Bytes Words UtilModel UtilProof SpongeSpec Fips202 Sha3Model KeccakBytes Sha3Top Sha2Spec Sha2Model Sha2Proof
  HashIface KmacSpec KmacModel KmacProof MacSpec MacModel MacProof DrbgSpec DrbgModel DrbgProof XofDrngModel XofDrngProof
  AesSpec AesModel AesProof ModesSpec ModesModel ModesProof ChaChaProof SymTop AeadEtmModel AeadEtmProof.

(** ** Blocks of a key stream and reads of the generator *)
Section Outs.
  Variable X : Type.
  Variable next : X -> list Z * X.
  Fixpoint kouts (x : X) (k : nat) : list (list Z) :=
    match k with O => [] | S k' => fst (next x) :: kouts (snd (next x)) k' end.
  Lemma gst_S : forall k x, gst X next x (S k) = gst X next (snd (next x)) k.
  Proof. induction k as [|k IH]; intros x; [reflexivity|].
    change (snd (next (gst X next x (S k))) = snd (next (gst X next (snd (next x)) k))). rewrite IH. reflexivity. Qed.
  Lemma kouts_blkn : forall k x, kouts x k = map (blkn X next x) (seq 0 k).
  Proof.
    induction k as [|k IH]; intros x; [reflexivity|]. cbn [kouts seq map]. f_equal. rewrite IH.
    rewrite <- seq_shift, map_map. apply map_ext. intros i. unfold blkn. rewrite gst_S. reflexivity.
  Qed.
  Variable B : nat.
  Hypothesis HB : (0 < B)%nat.
  Variable KZ : Z.
  Variable x0 : X.
  Variable STREAM : nat -> list Z.
  Hypothesis Hs : forall K, Z.of_nat K <= KZ -> concat (kouts x0 K) = STREAM (B * K) /\
    map (@length Z) (kouts x0 K) = repeat B K /\ bytes (STREAM (B * K)).
  Lemma outs_len : forall k, Z.of_nat k < KZ -> length (blkn X next x0 k) = B /\ bytes (blkn X next x0 k).
  Proof.
    intros k Hk. destruct (Hs (S k) ltac:(lia)) as (E1 & E2 & E3). rewrite kouts_blkn in E1, E2.
    rewrite seq_S, map_app in E1, E2. rewrite Nat.add_0_l in E1, E2. split.
    - rewrite map_app in E2. cbn [map] in E2.
      assert (R : repeat B (S k) = repeat B k ++ [B]) by (change [B] with (repeat B 1); rewrite <- repeat_app; f_equal; lia).
      rewrite R in E2. apply app_inj_tail in E2. apply E2.
    - rewrite <- E1 in E3. rewrite concat_app in E3. apply bytes_app_inv in E3. destruct E3 as [_ E3].
      cbn [map concat] in E3. rewrite app_nil_r in E3. exact E3.
  Qed.
  Lemma blk0_stream : 1 <= KZ -> blkn X next x0 0 = STREAM B.
  Proof.
    intros H1. destruct (Hs 1 H1) as [E _]. cbn [kouts concat] in E. rewrite app_nil_r, Nat.mul_1_r in E. exact E.
  Qed.
  Lemma setkey_gst : gst X next x0 1 = snd (next x0).
  Proof. reflexivity. Qed.
  Lemma blkn_0 : blkn X next x0 0 = fst (next x0).
  Proof. reflexivity. Qed.
  Lemma kslice_stream : forall p n K, Z.of_nat K <= KZ -> (p + n <= B * K)%nat ->
    kslice X next B x0 p n = slice (STREAM (B * K)) p n.
  Proof.
    intros p n K HK Hp.
    assert (A : forall k, Z.of_nat k <= KZ -> kslice X next B x0 0 (B * k) = concat (kouts x0 k)).
    { induction k as [|k IH]; intros Hk; [rewrite Nat.mul_0_r; reflexivity|].
      replace (B * S k)%nat with (B * k + B)%nat by lia. rewrite kslice_app, IH by lia. rewrite Nat.add_0_l.
      assert (Q : kslice X next B x0 (B * k) B = slice (blkn X next x0 k) 0 B).
      { rewrite <- (kslice_block X next B KZ x0 HB outs_len k 0 B) by lia. rewrite Nat.add_0_r. reflexivity. }
      rewrite Q. clear Q.
      rewrite !kouts_blkn, seq_S, map_app, concat_app. rewrite Nat.add_0_l. cbn [map concat]. rewrite app_nil_r.
      f_equal. unfold slice. rewrite skipn_O. destruct (outs_len k ltac:(lia)) as [L _]. rewrite <- L. apply firstn_all. }
    destruct (Hs K HK) as (E & _). rewrite <- E, <- A by exact HK.
    replace (B * K)%nat with (p + (n + (B * K - p - n)))%nat by lia. rewrite !kslice_app, Nat.add_0_l.
    unfold slice. rewrite skipn_app, skipn_all2 by (rewrite length_kslice; lia). rewrite length_kslice, Nat.sub_diag, skipn_O.
    cbn [app]. rewrite firstn_app, length_kslice, Nat.sub_diag, firstn_all2 by (rewrite length_kslice; lia).
    cbn [firstn]. rewrite app_nil_r. reflexivity.
  Qed.
End Outs.

(** ** What is proved of every AEAD in the family *)
(** decryption of any cutting of the ciphertext returns the plaintext and accepts the tag *)
Definition aead_roundtrip (okt : nat -> Prop) (lim : Z) (okp okc : list (list Z) -> list (list Z) -> Prop)
    (enc : list Z -> list (list Z) -> list Z -> list (list Z) * list Z)
    (dec : (nat -> list Z) -> Z -> Z -> list Z -> list (list Z) -> list Z -> list (list Z) * Z) : Prop :=
  forall aad ps buf stack p1 p2 cs, bytes aad -> Forall bytes ps -> okp ps ps -> okt (length buf) ->
    (forall n, length (stack n) = n) -> Z.of_nat (length aad + length (concat ps)) < lim ->
    concat cs = concat (fst (enc aad ps buf)) -> okc (fst (enc aad ps buf)) cs ->
    map (@length Z) (fst (enc aad ps buf)) = map (@length Z) ps /\
    concat (fst (dec stack p1 p2 aad cs (snd (enc aad ps buf)))) = concat ps /\
    snd (dec stack p1 p2 aad cs (snd (enc aad ps buf))) = 0.
(** decryption accepts exactly the tag T of the AAD followed by the ciphertext *)
Definition aead_verify (T : list Z -> nat -> list Z) (okt : nat -> Prop) (lim : Z)
    (dec : (nat -> list Z) -> Z -> Z -> list Z -> list (list Z) -> list Z -> list (list Z) * Z) : Prop :=
  forall aad cs tag stack p1 p2, bytes aad -> Forall bytes cs -> bytes tag -> okt (length tag) ->
    (forall n, length (stack n) = n) -> Z.of_nat (length aad + length (concat cs)) < lim ->
    (snd (dec stack p1 p2 aad cs tag) = 0 <-> tag = T (aad ++ concat cs) (length tag)) /\
    (snd (dec stack p1 p2 aad cs tag) <> 0 -> snd (dec stack p1 p2 aad cs tag) = -74).
Definition aead_tag (T : list Z -> nat -> list Z) (okt : nat -> Prop) (lim : Z) (okp : list (list Z) -> list (list Z) -> Prop)
    (enc : list Z -> list (list Z) -> list Z -> list (list Z) * list Z) : Prop :=
  forall aad ps buf, bytes aad -> Forall bytes ps -> okp ps ps -> okt (length buf) ->
    Z.of_nat (length aad + length (concat ps)) < lim ->
    snd (enc aad ps buf) = T (aad ++ concat (fst (enc aad ps buf))) (length buf).
Definition any_split (a b : list (list Z)) : Prop := True.
Definition same_split (a b : list (list Z)) : Prop := a = b.

Lemma Forall_bytes_concat : forall l, bytes (concat l) -> Forall bytes l.
Proof.
  induction l as [|x l IH]; intros H; [constructor|]. cbn [concat] in H. apply bytes_app_inv in H. destruct H. constructor; auto.
Qed.

(** ** Generic AEAD from cipher and MAC *)
Section Gen.
  Variables (C M : Type).
  Variable enc dec : C -> list Z -> list Z * C.
  Variable mupd : M -> list Z -> M.
  Variable mtag : M -> nat -> list Z * M.
  Variable cap : nat -> option nat.
  Variable m : M.
  Variable T : list Z -> nat -> list Z.
  Variable okt : nat -> Prop.
  Variable mmax : Z.
  Hypothesis HT : forall xs n, Forall bytes xs -> Z.of_nat (length (concat xs)) < mmax -> okt n ->
    fst (mtag (fold_left mupd xs m) n) = T (concat xs) n.
  Hypothesis HTn : forall x n, bytes x -> okt n -> length (T x n) = n /\ bytes (T x n).
  Hypothesis Hcap : forall n, okt n -> cap n = Some n.
  Variables (m2 : M) (c c2 : C).
  Hypothesis HT2 : forall xs n, Forall bytes xs -> Z.of_nat (length (concat xs)) < mmax -> okt n ->
    fst (mtag (fold_left mupd xs m2) n) = T (concat xs) n.
  Variables okp okc : list (list Z) -> list (list Z) -> Prop.
  Variable lim : Z.
  Hypothesis Hlim : lim <= mmax.
  Hypothesis HE : forall ps, Forall bytes ps -> okp ps ps -> Z.of_nat (length (concat ps)) < lim ->
    Forall bytes (fst (crun C enc c ps)) /\ map (@length Z) (fst (crun C enc c ps)) = map (@length Z) ps.
  Hypothesis HD : forall ps cs, Forall bytes ps -> okp ps ps -> Z.of_nat (length (concat ps)) < lim ->
    concat cs = concat (fst (crun C enc c ps)) -> okc (fst (crun C enc c ps)) cs ->
    concat (fst (crun C dec c2 cs)) = concat ps.
  Lemma len_concat_map : forall a b : list (list Z), map (@length Z) a = map (@length Z) b -> length (concat a) = length (concat b).
  Proof.
    induction a as [|x a IH]; destruct b as [|y b]; intros E; try discriminate; [reflexivity|].
    injection E as E1 E2. cbn [concat]. rewrite !app_length, E1, (IH b E2). reflexivity.
  Qed.
  Let encs aad ps buf := etm_encrypt_stream C M enc mupd mtag (c, m) aad ps buf.
  Let decs stack p1 p2 aad cs tag := etm_decrypt_stream C M dec mupd mtag cap stack p1 p2 (c2, m2) aad cs tag.
  Lemma gen_enc : forall aad ps buf, bytes aad -> Forall bytes ps -> okp ps ps -> okt (length buf) ->
    Z.of_nat (length aad + length (concat ps)) < lim ->
    encs aad ps buf = (fst (crun C enc c ps), T (aad ++ concat (fst (crun C enc c ps))) (length buf)).
  Proof.
    intros aad ps buf Ha Hp Ho Ht Hl. destruct (HE ps Hp Ho ltac:(lia)) as [E1 E2].
    unfold encs. apply (enc_stream_ok C M enc mupd mtag m T okt mmax HT HTn); auto.
    rewrite (len_concat_map _ _ E2). lia.
  Qed.
  Lemma gen_tag : aead_tag T okt lim okp encs.
  Proof. intros aad ps buf Ha Hp Ho Ht Hl. rewrite gen_enc by auto. reflexivity. Qed.
  Lemma gen_verify : aead_verify T okt lim decs.
  Proof.
    intros aad cs tag stack p1 p2 Ha Hc Htg Ht Hs Hl. unfold decs.
    destruct (dec_stream_ok C M dec mupd mtag cap m2 T okt mmax HT2 HTn Hcap stack p1 p2 c2 aad cs tag Ha Hc Htg (Hs _)
                ltac:(lia) Ht) as (_ & E1 & E2).
    destruct (list_eq_dec Z.eq_dec tag (T (aad ++ concat cs) (length tag))) as [Q|Q].
    - split; [split; auto|]. intros N. exfalso. apply N, E1, Q.
    - split; [|auto]. split; [|tauto]. intros Z. rewrite (E2 Q) in Z. discriminate.
  Qed.
  Lemma gen_roundtrip : aead_roundtrip okt lim okp okc encs decs.
  Proof.
    intros aad ps buf stack p1 p2 cs Ha Hp Ho Ht Hs Hl Ec Hc. rewrite gen_enc in * by auto. cbn [fst snd] in *.
    destruct (HE ps Hp Ho ltac:(lia)) as [E1 E2]. pose proof (len_concat_map _ _ E2) as L.
    assert (Bc : bytes (concat cs)) by (rewrite Ec; apply bytes_concat, E1).
    pose proof (Forall_bytes_concat _ Bc) as Fc.
    destruct (HTn (aad ++ concat (fst (crun C enc c ps))) (length buf)) as [TL TB]; auto.
    { apply bytes_app; auto. rewrite <- Ec. exact Bc. }
    destruct (dec_stream_ok C M dec mupd mtag cap m2 T okt mmax HT2 HTn Hcap stack p1 p2 c2 aad cs
      (T (aad ++ concat (fst (crun C enc c ps))) (length buf)) Ha Fc TB (Hs _)) as (D1 & D2 & _).
    { rewrite Ec. lia. } { rewrite TL. exact Ht. }
    split; [exact E2|]. split.
    - unfold decs. rewrite D1. apply HD; auto. lia.
    - apply D2. rewrite TL, Ec. reflexivity.
  Qed.
End Gen.

(** ** Key stream AEADs *)
Section KsGen.
  Variable X M : Type.
  Variable next : X -> list Z * X.
  Variable B : nat.
  Hypothesis HB : (0 < B)%nat.
  Variable KZ : Z.
  Variable x0 : X.
  Hypothesis Hlen : forall k, Z.of_nat k < KZ -> length (blkn X next x0 k) = B /\ bytes (blkn X next x0 k).
  Variable pos : nat.
  Variable s : ks X.
  Hypothesis Hs : ksat X next B KZ x0 pos s.
  Variable lim : Z.
  Hypothesis Hlim : lim + Z.of_nat pos <= Z.of_nat B * KZ.
  Lemma ks_HE : forall ps, Forall bytes ps -> any_split ps ps -> Z.of_nat (length (concat ps)) < lim ->
    Forall bytes (fst (crun _ (ks_run X next B) s ps)) /\
    map (@length Z) (fst (crun _ (ks_run X next B) s ps)) = map (@length Z) ps.
  Proof.
    intros ps Hp _ Hl. split.
    - apply (ks_runs_bytes X next B KZ x0 HB Hlen ps s pos Hs); auto. lia.
    - apply (ks_runs_ok X next B KZ x0 HB Hlen ps s pos Hs). lia.
  Qed.
  Variables (x2 : X) (s2 : ks X).
  Hypothesis Hlen2 : forall k, Z.of_nat k < KZ -> blkn X next x2 k = blkn X next x0 k.
  Hypothesis Hs2 : ksat X next B KZ x2 pos s2.
  Lemma ks_HD : forall ps cs, Forall bytes ps -> any_split ps ps -> Z.of_nat (length (concat ps)) < lim ->
    concat cs = concat (fst (crun _ (ks_run X next B) s ps)) -> any_split (fst (crun _ (ks_run X next B) s ps)) cs ->
    concat (fst (crun _ (ks_run X next B) s2 cs)) = concat ps.
  Proof.
    intros ps cs Hp _ Hl E _.
    destruct (ks_runs_ok X next B KZ x0 HB Hlen ps s pos Hs ltac:(lia)) as [E1 _]. rewrite E1 in E.
    assert (L : length (concat cs) = length (concat ps)) by (rewrite E; rewrite length_xorl; rewrite ?length_kslice; lia).
    assert (HL2 : forall k, Z.of_nat k < KZ -> length (blkn X next x2 k) = B /\ bytes (blkn X next x2 k))
      by (intros k Hk; rewrite (Hlen2 k Hk); apply Hlen, Hk).
    destruct (ks_runs_ok X next B KZ x2 HB HL2 cs s2 pos Hs2 ltac:(lia)) as [E2 _]. rewrite E2, L, E.
    assert (Q : kslice X next B x2 pos (length (concat ps)) = kslice X next B x0 pos (length (concat ps))).
    { unfold kslice. apply map_ext_in. intros i Hi. apply in_seq in Hi. unfold kbyte. rewrite Hlen2; [reflexivity|].
      pose proof (Nat.div_mod i B ltac:(lia)). nia. }
    rewrite Q. apply xorl_cancel. rewrite length_kslice. lia.
  Qed.
End KsGen.

(** ** cSHAKE *)
Lemma cs_init_any : forall h N S, hc_alg h = alg_cshake256 -> cshake_init permB h N S = cshake_init permB cs_fresh N S.
Proof. intros h N S E. unfold cshake_init, hh_init, hh_blocksize. rewrite E. reflexivity. Qed.
Lemma hh_reads_kouts : forall K h, fst (hh_reads h (repeat 136%nat K)) = kouts _ cc_next h K.
Proof.
  induction K as [|K IH]; intros h; [reflexivity|]. cbn [repeat hh_reads kouts]. rewrite <- IH. unfold cc_next.
  destruct (hh_xof permB h 136) as [o h1]. cbn [snd fst]. destruct (hh_reads h1 (repeat 136%nat K)). reflexivity.
Qed.
Lemma sum_repeat : forall b k, list_sum (repeat b k) = (b * k)%nat.
Proof. intros b. induction k as [|k IH]; [cbn; lia|]. cbn [repeat list_sum fold_right] in *. unfold list_sum in IH. rewrite IH. lia. Qed.

Definition cc_stream (key iv : list Z) (n : nat) : list Z := cSHAKE 64 iv 0 n cc_crypt_str key.
Definition cc_mac (key iv : list Z) (x : list Z) (n : nat) : list Z :=
  cSHAKE 64 x 0 n cc_auth_str (firstn 32 (cc_stream key iv 136)).
Definition cc_memory (s : ks KmacModel.hctx * csctx) : Prop :=
  hc_alg (ks_gen _ (fst s)) = alg_cshake256 /\ hc_alg (cs_h (snd s)) = alg_cshake256.

Lemma cc_str_ok : bytes cc_crypt_str /\ bytes cc_auth_str.
Proof. split; repeat constructor; unfold byte; lia. Qed.
Lemma P136 : (0 < 136)%nat. Proof. lia. Qed.
Lemma cc_lim : 2 ^ 61 + Z.of_nat 32 <= Z.of_nat 136 * 2 ^ 60. Proof. lia. Qed.
Section CC.
  Variables (s : ks KmacModel.hctx * csctx) (key iv : list Z).
  Hypothesis Hm : cc_memory s.
  Hypotheses (Bk : bytes key) (Bi : bytes iv) (Lk : Z.of_nat (length key) < 2 ^ 60) (Li : Z.of_nat (length iv) < 2 ^ 60).
  Let x0 := hh_update permB (cshake_init permB cs_fresh cc_crypt_str key) iv.
  Lemma cc_kouts : forall K, Z.of_nat K <= 2 ^ 60 -> concat (kouts _ cc_next x0 K) = cc_stream key iv (136 * K) /\
    map (@length Z) (kouts _ cc_next x0 K) = repeat 136%nat K /\ bytes (cc_stream key iv (136 * K)).
  Proof.
    intros K _. rewrite <- hh_reads_kouts. destruct cc_str_ok as [S1 S2].
    pose proof (cs_reads cc_crypt_str key [iv] (repeat 136%nat K) S1 Bk (Forall_cons _ Bi (Forall_nil _))) as R. cbv zeta in R.
    assert (L1 : Z.of_nat (length cc_crypt_str) < 2 ^ 60) by (cbn; lia).
    assert (L2 : Z.of_nat (length (concat [iv])) < 2 ^ 61) by (cbn [concat]; rewrite app_nil_r; lia).
    specialize (R L1 Lk L2). destruct R as [R1 R2]. rewrite sum_repeat in R1.
    change (concat [iv]) with (iv ++ []) in R1. rewrite app_nil_r in R1.
    split; [exact R1|]. split; [exact R2|]. apply cSHAKE_ok; auto; lia.
  Qed.
  Definition cc_keyed : ks KmacModel.hctx * csctx :=
    (mkKS _ (gst _ cc_next x0 1) (blkn _ cc_next x0 0) 32,
     cs_ctx_init (mkCS cs_fresh (hc_st cs_fresh)) cc_auth_str (firstn 32 (cc_stream key iv 136))).
  Lemma cc_blk0 : blkn _ cc_next x0 0 = cc_stream key iv 136.
  Proof.
    exact (blk0_stream _ cc_next 136 (2 ^ 60) x0 (cc_stream key iv) cc_kouts ltac:(lia)).
  Qed.
  Lemma cc_setkey_ok : cc_setkey s key iv = (0, cc_keyed).
  Proof.
    destruct Hm as [M1 M2]. unfold cc_setkey, cc_keyed. rewrite (cs_init_any _ _ _ M1). cbv zeta.
    rewrite <- cc_blk0, setkey_gst, blkn_0. fold x0. unfold cc_next. destruct (hh_xof permB x0 136) as [o h]. cbn [fst snd].
    unfold cs_ctx_init. rewrite (cs_init_any (cs_h (snd s)) _ _ M2). reflexivity.
  Qed.
  Lemma cs_upds : forall xs c, fold_left cs_ctx_update xs c = mkCS (hh_updates (cs_h c) xs) (cs_shadow c).
  Proof.
    induction xs as [|x xs IH]; intros c; [destruct c; reflexivity|]. cbn [fold_left]. rewrite IH. reflexivity.
  Qed.
  Lemma bytes_authkey : bytes (firstn 32 (cc_stream key iv 136)) /\ (length (firstn 32 (cc_stream key iv 136)) <= 32)%nat.
  Proof. split; [apply bytes_firstn; rewrite <- cc_blk0; apply (outs_len _ cc_next 136 P136 (2 ^ 60) x0 (cc_stream key iv) cc_kouts); lia|]. apply firstn_le_length. Qed.
  Lemma cc_HT : forall xs n, Forall bytes xs -> Z.of_nat (length (concat xs)) < 2 ^ 61 -> True ->
    fst (cc_tag (fold_left cs_ctx_update xs (snd cc_keyed)) n) = cc_mac key iv (concat xs) n.
  Proof.
    intros xs n Hx Hl _. rewrite cs_upds. unfold cc_tag. cbn [cs_h cs_shadow].
    destruct bytes_authkey as [B1 B2].
    pose proof (cs_reads cc_auth_str (firstn 32 (cc_stream key iv 136)) xs [n] (proj2 cc_str_ok) B1 Hx) as R. cbv zeta in R.
    assert (L1 : Z.of_nat (length cc_auth_str) < 2 ^ 60) by (cbn; lia).
    specialize (R L1 ltac:(lia) Hl). destruct R as [R _]. rewrite sum1 in R. apply hh_one in R.
    unfold cc_keyed. cbn [snd]. unfold cs_ctx_init. cbn [cs_h].
    match goal with |- fst (let '(_, _) := ?a in _) = _ => change (fst a = cc_mac key iv (concat xs) n) || idtac end.
    destruct (hh_xof permB _ n) as [t h']. cbn [fst] in *. exact R.
  Qed.
  Lemma cc_HTn : forall x n, bytes x -> True -> length (cc_mac key iv x n) = n /\ bytes (cc_mac key iv x n).
  Proof.
    intros x n Hx _. destruct bytes_authkey as [B1 B2]. unfold cc_mac.
    destruct (cSHAKE_ok x 0 n cc_auth_str (firstn 32 (cc_stream key iv 136)) Hx (proj2 cc_str_ok) B1) as [R1 R2]; [cbn; lia|lia|].
    split; assumption.
  Qed.
  Lemma cc_at : ksat _ cc_next 136 (2 ^ 60) x0 32 (fst cc_keyed).
  Proof. exists 0%nat. unfold cc_keyed. cbn [fst ks_ptr]. repeat split; lia. Qed.
  Let Hlen := outs_len _ cc_next 136 P136 (2 ^ 60) x0 (cc_stream key iv) cc_kouts.
  Let okt (n : nat) : Prop := True.
  Let HE := ks_HE _ cc_next 136 P136 (2 ^ 60) x0 Hlen 32 (fst cc_keyed) cc_at (2 ^ 61) cc_lim.
  Let HD := ks_HD _ cc_next 136 P136 (2 ^ 60) x0 Hlen 32 (fst cc_keyed) cc_at (2 ^ 61) cc_lim x0 (fst cc_keyed) (fun _ _ => eq_refl) cc_at.
  Lemma cc_roundtrip : aead_roundtrip okt (2 ^ 61) any_split any_split (cc_enc_stream cc_keyed)
    (fun st p1 p2 => cc_dec_stream st p1 p2 cc_keyed).
  Proof. exact (gen_roundtrip _ _ _ _ _ _ _ _ _ okt (2 ^ 61) cc_HT cc_HTn (fun n _ => eq_refl) (snd cc_keyed)
    (fst cc_keyed) (fst cc_keyed) cc_HT _ _ _ (Z.le_refl _) HE HD). Qed.
  Lemma cc_verify : aead_verify (cc_mac key iv) okt (2 ^ 61) (fun st p1 p2 => cc_dec_stream st p1 p2 cc_keyed).
  Proof. exact (gen_verify _ _ cc_crypt _ _ _ _ (snd cc_keyed) _ okt (2 ^ 61) cc_HTn (fun n _ => eq_refl) _ (fst cc_keyed) (fst cc_keyed) cc_HT (2 ^ 61) (Z.le_refl _)). Qed.
  Lemma cc_tag_ok : aead_tag (cc_mac key iv) okt (2 ^ 61) any_split (cc_enc_stream cc_keyed).
  Proof. exact (gen_tag _ _ _ _ _ _ _ okt (2 ^ 61) cc_HT cc_HTn (fst cc_keyed) _ _ (Z.le_refl _) HE). Qed.
  Lemma cc_cipher : forall ps K, Forall bytes ps -> (32 + length (concat ps) <= 136 * K)%nat -> Z.of_nat K <= 2 ^ 60 ->
    concat (fst (crun _ cc_crypt (fst cc_keyed) ps)) =
    xorl (concat ps) (slice (cc_stream key iv (136 * K)) 32 (length (concat ps))).
  Proof.
    intros ps K Hp Hl HK. unfold cc_crypt.
    destruct (ks_runs_ok _ cc_next 136 (2 ^ 60) x0 P136 Hlen ps (fst cc_keyed) 32 cc_at) as [E _]; [lia|]. rewrite E.
    rewrite (kslice_stream _ cc_next 136 P136 (2 ^ 60) x0 (cc_stream key iv) cc_kouts 32 _ K HK Hl). reflexivity.
  Qed.
End CC.

(** ** KMAC *)
Lemma km_reads_any : forall c K S xs ns, hc_alg (km_h c) = alg_cshake256 -> bytes K -> bytes S -> Forall bytes xs ->
  Z.of_nat (length K) < 2 ^ 60 -> Z.of_nat (length S) < 2 ^ 60 -> Z.of_nat (length (concat xs)) < 2 ^ 61 ->
  let outs := fst (kmac_xof_reads permB (kmac_updates permB (kmac_init permB c K S) xs) ns) in
  concat outs = KMACXOF 64 K (concat xs) 0 (list_sum ns) S /\ map (@length Z) outs = ns.
Proof.
  intros c K S xs ns Ea HK HS Hx LK LS LX.
  pose proof (kmacxof_ok c K S xs ns) as R. cbv zeta in R. unfold kmac_prefix in R. rewrite Ea in R.
  change (cap_of alg_cshake256) with 64%nat in R. change (a_r alg_cshake256) with 136%nat in R.
  apply R; auto; try lia; [cbn; auto|]. rewrite !app_length.
  pose proof (length_bytepad136 (encode_string KMAC_N ++ encode_string S)). rewrite app_length in H.
  pose proof (length_bytepad136 (encode_string K)).
  pose proof (length_encode_string KMAC_N ltac:(cbn; lia)). pose proof (length_encode_string K ltac:(lia)).
  pose proof (length_encode_string S ltac:(lia)). change (length KMAC_N) with 4%nat in *. lia.
Qed.
Lemma km_reads_kouts : forall K c, fst (kmac_xof_reads permB c (repeat 136%nat K)) = kouts _ kc_next c K.
Proof.
  induction K as [|K IH]; intros h; [reflexivity|]. cbn [repeat kmac_xof_reads kouts]. rewrite <- IH. unfold kc_next, kmac_final_xof.
  change (4 <=? 136)%nat with true. cbv iota. destruct (kmac_final_xof_internal permB h 136) as [o h1]. cbn [snd fst].
  destruct (kmac_xof_reads permB h1 (repeat 136%nat K)). reflexivity.
Qed.
Lemma km_init_any : forall c h sh K S, hc_alg (km_h c) = alg_cshake256 -> hc_alg h = alg_cshake256 ->
  (km_shadow c = None <-> sh = None) -> kmac_init permB c K S = kmac_init permB (mkKM h sh false) K S.
Proof.
  intros [h1 sh1 f1] h sh K S E1 E2 Es. cbn [km_h km_shadow] in *. unfold kmac_init. cbn [km_h km_shadow].
  rewrite (cs_init_any h1 _ _ E1), (cs_init_any h _ _ E2).
  destruct sh1, sh; try reflexivity; destruct Es as [Q1 Q2]; [discriminate (Q2 eq_refl)|discriminate (Q1 eq_refl)].
Qed.
Lemma km_tag_ok : forall c K S xs n, hc_alg (km_h c) = alg_cshake256 -> bytes K -> bytes S -> Forall bytes xs ->
  Z.of_nat (length K) < 2 ^ 60 -> Z.of_nat (length S) < 2 ^ 60 -> Z.of_nat (length (concat xs)) < 2 ^ 61 -> (4 <= n)%nat ->
  fst (kmac_final_xof permB (fold_left (kmac_update permB) xs (kmac_init permB c K S)) n) = KMACXOF 64 K (concat xs) 0 n S.
Proof.
  intros c K S xs n Ea HK HS Hx LK LS LX Hn.
  pose proof (km_reads_any c K S xs [n] Ea HK HS Hx LK LS LX) as R. cbv zeta in R. destruct R as [R _].
  rewrite sum1 in R. exact (km_one _ _ _ Hn R).
Qed.

Definition kc_stream (key iv : list Z) (n : nat) : list Z := KMACXOF 64 key [] 0 n iv.
Definition kc_mac (key iv : list Z) (x : list Z) (n : nat) : list Z :=
  KMACXOF 64 (firstn 32 (kc_stream key iv 136)) x 0 n [].
Definition kc_memory (s : ks kmctx * kmctx) : Prop :=
  hc_alg (km_h (ks_gen _ (fst s))) = alg_cshake256 /\ hc_alg (km_h (snd s)) = alg_cshake256 /\
  km_shadow (ks_gen _ (fst s)) = None /\ km_shadow (snd s) <> None.
Definition km_fresh_re : kmctx := mkKM cs_fresh (Some (hc_st cs_fresh)) false.
Section KC.
  Variables (s : ks kmctx * kmctx) (key iv : list Z).
  Hypothesis Hm : kc_memory s.
  Hypotheses (Bk : bytes key) (Bi : bytes iv) (Lk : Z.of_nat (length key) < 2 ^ 60) (Li : Z.of_nat (length iv) < 2 ^ 60).
  Let x0 := kmac_init permB km_fresh key iv.
  Lemma kc_kouts : forall K, Z.of_nat K <= 2 ^ 60 -> concat (kouts _ kc_next x0 K) = kc_stream key iv (136 * K) /\
    map (@length Z) (kouts _ kc_next x0 K) = repeat 136%nat K /\ bytes (kc_stream key iv (136 * K)).
  Proof.
    intros K _. rewrite <- km_reads_kouts.
    pose proof (km_reads_any km_fresh key iv [] (repeat 136%nat K) eq_refl Bk Bi (Forall_nil _) Lk Li) as R. cbv zeta in R.
    assert (L2 : Z.of_nat (length (concat (@nil (list Z)))) < 2 ^ 61) by (cbn; lia).
    specialize (R L2). destruct R as [R1 R2]. rewrite sum_repeat in R1.
    split; [exact R1|]. split; [exact R2|]. 
    assert (K1 : 8 * Z.of_nat (length key) < 2 ^ 64) by lia. assert (K2 : 8 * Z.of_nat (length iv) < 2 ^ 64) by lia.
    exact (proj1 (KMACXOF_ok key [] 0 (136 * K) iv Bk (Forall_nil _) Bi K1 K2)).
  Qed.
  Definition kc_keyed : ks kmctx * kmctx :=
    (mkKS _ (gst _ kc_next x0 1) (blkn _ kc_next x0 0) 32, kmac_init permB km_fresh_re (firstn 32 (kc_stream key iv 136)) []).
  Lemma kc_blk0 : blkn _ kc_next x0 0 = kc_stream key iv 136.
  Proof. exact (blk0_stream _ kc_next 136 (2 ^ 60) x0 (kc_stream key iv) kc_kouts ltac:(lia)). Qed.
  Lemma kc_setkey_ok : kc_setkey s key iv = (0, kc_keyed).
  Proof.
    destruct Hm as (M1 & M2 & M3 & M4). unfold kc_setkey, kc_keyed.
    assert (I1 : kmac_init permB (ks_gen _ (fst s)) key iv = x0).
    { apply km_init_any; auto. tauto. }
    assert (I2 : forall K, kmac_init permB (snd s) K [] = kmac_init permB km_fresh_re K []).
    { intros K. apply km_init_any; auto. split; [tauto|discriminate]. }
    rewrite I1, <- kc_blk0, setkey_gst, blkn_0. unfold kc_next. destruct (kmac_final_xof permB x0 136) as [o h]. cbn [fst snd].
    rewrite I2. reflexivity.
  Qed.
  Let okt (n : nat) : Prop := (4 <= n)%nat.
  Lemma bytes_kc_authkey : bytes (firstn 32 (kc_stream key iv 136)) /\ (length (firstn 32 (kc_stream key iv 136)) <= 32)%nat.
  Proof.
    split; [|apply firstn_le_length]. apply bytes_firstn. rewrite <- kc_blk0.
    apply (outs_len _ kc_next 136 P136 (2 ^ 60) x0 (kc_stream key iv) kc_kouts). lia.
  Qed.
  Lemma kc_HT : forall xs n, Forall bytes xs -> Z.of_nat (length (concat xs)) < 2 ^ 61 -> okt n ->
    fst (kc_tag (fold_left (kmac_update permB) xs (snd kc_keyed)) n) = kc_mac key iv (concat xs) n.
  Proof.
    intros xs n Hx Hl Hn. destruct bytes_kc_authkey as [B1 B2].
    pose proof (km_tag_ok km_fresh_re (firstn 32 (kc_stream key iv 136)) [] xs n eq_refl B1 (Forall_nil _) Hx ltac:(lia)
      ltac:(cbn [length]; lia) Hl Hn) as R.
    unfold kc_tag, kc_keyed. cbn [snd]. destruct (kmac_final_xof permB _ n) as [t h']. cbn [fst] in *. exact R.
  Qed.
  Lemma kc_HTn : forall x n, bytes x -> okt n -> length (kc_mac key iv x n) = n /\ bytes (kc_mac key iv x n).
  Proof.
    intros x n Hx _. destruct bytes_kc_authkey as [B1 B2]. unfold kc_mac.
    destruct (KMACXOF_ok (firstn 32 (kc_stream key iv 136)) x 0 n [] B1 Hx (Forall_nil _)) as [R1 R2]; [lia|cbn; lia|].
    split; assumption.
  Qed.
  Lemma kc_at : ksat _ kc_next 136 (2 ^ 60) x0 32 (fst kc_keyed).
  Proof. exists 0%nat. unfold kc_keyed. cbn [fst ks_ptr]. repeat split; lia. Qed.
  Let Hlen := outs_len _ kc_next 136 P136 (2 ^ 60) x0 (kc_stream key iv) kc_kouts.
  Let HE := ks_HE _ kc_next 136 P136 (2 ^ 60) x0 Hlen 32 (fst kc_keyed) kc_at (2 ^ 61) cc_lim.
  Let HD := ks_HD _ kc_next 136 P136 (2 ^ 60) x0 Hlen 32 (fst kc_keyed) kc_at (2 ^ 61) cc_lim x0 (fst kc_keyed) (fun _ _ => eq_refl) kc_at.
  Lemma kc_roundtrip : aead_roundtrip okt (2 ^ 61) any_split any_split (kc_enc_stream kc_keyed)
    (fun st p1 p2 => kc_dec_stream st p1 p2 kc_keyed).
  Proof. exact (gen_roundtrip _ _ _ _ _ _ _ _ _ okt (2 ^ 61) kc_HT kc_HTn (fun n _ => eq_refl) (snd kc_keyed)
    (fst kc_keyed) (fst kc_keyed) kc_HT _ _ _ (Z.le_refl _) HE HD). Qed.
  Lemma kc_verify : aead_verify (kc_mac key iv) okt (2 ^ 61) (fun st p1 p2 => kc_dec_stream st p1 p2 kc_keyed).
  Proof. exact (gen_verify _ _ kc_crypt _ _ _ _ (snd kc_keyed) _ okt (2 ^ 61) kc_HTn (fun n _ => eq_refl) _ (fst kc_keyed) (fst kc_keyed) kc_HT (2 ^ 61) (Z.le_refl _)). Qed.
  Lemma kc_tag_ok : aead_tag (kc_mac key iv) okt (2 ^ 61) any_split (kc_enc_stream kc_keyed).
  Proof. exact (gen_tag _ _ _ _ _ _ _ okt (2 ^ 61) kc_HT kc_HTn (fst kc_keyed) _ _ (Z.le_refl _) HE). Qed.
  Lemma kc_cipher : forall ps K, Forall bytes ps -> (32 + length (concat ps) <= 136 * K)%nat -> Z.of_nat K <= 2 ^ 60 ->
    concat (fst (crun _ kc_crypt (fst kc_keyed) ps)) =
    xorl (concat ps) (slice (kc_stream key iv (136 * K)) 32 (length (concat ps))).
  Proof.
    intros ps K Hp Hl HK. unfold kc_crypt.
    destruct (ks_runs_ok _ kc_next 136 (2 ^ 60) x0 P136 Hlen ps (fst kc_keyed) 32 kc_at) as [E _]; [lia|]. rewrite E.
    rewrite (kslice_stream _ kc_next 136 P136 (2 ^ 60) x0 (kc_stream key iv) kc_kouts 32 _ K HK Hl). reflexivity.
  Qed.
End KC.

(** ** HMAC as MAC *)
Section HM.
  Variable h : hashops.
  Variable wf : HashIface.hctx h -> Prop.
  Variable H : list Z -> list Z.
  Variable maxlen : Z.
  Hypothesis OK : hash_ok h wf H maxlen.
  Let MAC := HMAC H (h_bs h).
  Lemma hm_final : forall c K xs, wf (hm_h h c) -> bytes K -> Z.of_nat (length K) < maxlen -> Forall bytes xs ->
    Z.of_nat (h_bs h + length (concat xs)) < maxlen ->
    fst (hmac_final h (fold_left (hmac_update h) xs (hmac_init h c K))) = MAC K (concat xs).
  Proof.
    intros c K xs Hw HK LK Hx Hl.
    pose proof (init_st h wf H maxlen OK K c Hw HK LK) as S0.
    pose proof (updates_st h wf H xs K _ [] S0 Hx) as S1. rewrite app_nil_l in S1.
    destruct (final_st h wf H maxlen OK K _ _ S1 Hl) as (c' & E & _). unfold hmac_updates in E. rewrite E. reflexivity.
  Qed.
  Lemma hm_trunc : forall K x n, bytes K -> bytes x -> (n <= h_ds h)%nat ->
    length (firstn n (MAC K x)) = n /\ bytes (firstn n (MAC K x)).
  Proof.
    intros K x n HK Hx Hn. split.
    - rewrite firstn_length. unfold MAC. rewrite (MAC_length h wf H maxlen OK). lia.
    - apply bytes_firstn, (MAC_bytes h wf H maxlen OK); auto.
  Qed.
End HM.

(** ** hash_crypt.c *)
Definition hd_gen (t : hd_state) : list Z * hd_state := HD_generate SHA512 64 111 t [] 64.
Fixpoint hd_outs (t : hd_state) (k : nat) : list (list Z) :=
  match k with O => [] | S k' => fst (hd_gen t) :: hd_outs (snd (hd_gen t)) k' end.
Definition hd_after (t : hd_state) : hd_state := snd (hd_gen t).
Definition hrel512 := hrel sha512_ops (swf cfg512) 111.
Lemma s512a : (h_ds sha512_ops <= 111)%nat. Proof. cbn. lia. Qed.
Lemma s512b : (8 <= 111)%nat. Proof. lia. Qed.
Lemma s512c : (111 <= 255)%nat. Proof. lia. Qed.
Lemma hd_gen_ok : forall t, bytes (S_V t) -> length (fst (hd_gen t)) = 64%nat /\ bytes (fst (hd_gen t)).
Proof.
  intros t Hb. unfold hd_gen, HD_generate, Hashgen. cbn [fst]. change (ceil_div 64 64) with 1%nat. cbn [seq flat_map].
  rewrite app_nil_r. pose proof (ok_len _ _ _ _ sha512_ops_ok (add_seed 111 (S_V t) (Z.of_nat 0))) as L.
  change (h_ds sha512_ops) with 64%nat in L. split.
  - rewrite firstn_length, L. reflexivity.
  - apply bytes_firstn, (ok_bytes _ _ _ _ sha512_ops_ok), add_seed_bytes.
Qed.
(** The generator request of hash_crypt.c never fails within the reseed limit. *)
Lemma hc_next_ok : forall d t, hrel512 d (Some t) -> S_ctr t <= 2 ^ 48 ->
  exists d', hc_step d (RGen [] 64) = (0, fst (hd_gen t), d') /\ hrel512 d' (Some (hd_after t)).
Proof.
  intros d t HR Hc. unfold hc_step.
  assert (Hk : 1 <= S_ctr t) by (destruct HR as (_ & _ & _ & _ & A & B & _); lia).
  destruct (hstep_ok sha512_ops (swf cfg512) SHA512 (2 ^ 61) sha512_ops_ok 111 s512a s512b s512c d (Some t) (RGen [] 64) (S_ctr t)
    HR (Z.le_refl _) Hc Hk (Forall_nil _)) as (rc & o & d' & t' & E1 & E2 & R & _).
  change (h_ds sha512_ops) with 64%nat in E2. cbn [HD_step] in E2.
  change (max_request <? Z.of_nat 64) with false in E2. change (max_addtl <? Z.of_nat (length (@nil Z))) with false in E2.
  unfold reseed_interval in E2. rewrite (proj2 (Z.ltb_ge _ _) Hc) in E2. cbn [orb] in E2. unfold hd_after, hd_gen.
  destruct (HD_generate SHA512 64 111 t [] 64) as [o' t'']. cbn [fst snd].
  exists d'. rewrite E1. injection E2 as <- <- <-. split; [reflexivity|exact R].
Qed.
Lemma hd_after_ctr : forall t, S_ctr (hd_after t) = S_ctr t + 1.
Proof. reflexivity. Qed.
Lemma hc_kouts : forall K d t, hrel512 d (Some t) -> S_ctr t + Z.of_nat K <= 2 ^ 48 + 1 ->
  kouts _ hc_next d K = hd_outs t K /\ map (@length Z) (hd_outs t K) = repeat 64%nat K /\ bytes (concat (hd_outs t K)).
Proof.
  induction K as [|K IH]; intros d t HR Hc; [repeat split; constructor|].
  destruct (hc_next_ok d t HR ltac:(lia)) as (d' & E & R').
  assert (En : hc_next d = (fst (hd_gen t), d')) by (unfold hc_next; rewrite E; reflexivity).
  destruct (IH d' (hd_after t) R') as (I1 & I2 & I3); [rewrite hd_after_ctr; lia|].
  cbn [kouts hd_outs map repeat concat]. rewrite En. cbn [fst snd]. fold (hd_after t). rewrite I1, I2.
  destruct (hd_gen_ok t) as [L B]; [destruct HR as (_ & _ & _ & _ & _ & _ & _ & X & _); exact X|].
  rewrite L. split; [reflexivity|]. split; [reflexivity|]. apply bytes_app; assumption.
Qed.
Definition hc_t0 (key iv : list Z) : hd_state := HD_instantiate SHA512 64 111 key iv.
Definition hc_auth (key iv : list Z) : list Z := fst (hd_gen (hc_t0 key iv)).
Definition hc_t1 (key iv : list Z) : hd_state := hd_after (hc_t0 key iv).
Definition hc_stream (key iv : list Z) (n : nat) : list Z := concat (hd_outs (hc_t1 key iv) (n / 64)).
Lemma hc_auth_eq : forall key iv, fst (hd_gen (hc_t0 key iv)) = hc_auth key iv.
Proof. unfold hc_auth. reflexivity. Qed.
Lemma P64' : (0 < 64)%nat. Proof. lia. Qed.
Lemma hc_lim : 2 ^ 52 + Z.of_nat 0 <= Z.of_nat 64 * 2 ^ 47. Proof. lia. Qed.

Section HC.
  Variable h : hashops.
  Variable wf : HashIface.hctx h -> Prop.
  Variable H : list Z -> list Z.
  Variable maxlen : Z.
  Hypothesis OK : hash_ok h wf H maxlen.
  Variables (key iv : list Z).
  Hypotheses (Bk : bytes key) (Bi : bytes iv) (Nk : key <> []) (Lk : Z.of_nat (length key) < 2 ^ 59)
    (Li : Z.of_nat (length iv) <= 2 ^ 31).
  Definition hc_memory (s : ks (hdst sha512_ops) * hmctx h) : Prop :=
    (exists hm, swf cfg512 hm /\ ks_gen _ (fst s) = hash_drbg_zero sha512_ops 111 hm) /\ wf (hm_h h (snd s)).
  Definition hc_ready (s : ks (hdst sha512_ops) * hmctx h) : Prop :=
    exists x0 m0, s = (mkKS _ (gst _ hc_next x0 1) (blkn _ hc_next x0 0) 0, hmac_init h m0 (hc_auth key iv)) /\
      hrel512 x0 (Some (hc_t1 key iv)) /\ wf (hm_h h m0).
  Lemma bytes_t0 : bytes (S_V (hc_t0 key iv)).
  Proof.
    unfold hc_t0, HD_instantiate. cbn [S_V]. unfold Hash_df. apply bytes_firstn, bytes_flat. intros i.
    apply (ok_bytes _ _ _ _ sha512_ops_ok). apply bytes_app; [|apply bytes_app; [apply bytes_be_bytes|apply bytes_app; assumption]].
    constructor; [|constructor]. unfold byte. apply Z.mod_pos_bound. lia.
  Qed.
  Lemma hc_setkey_ok : forall s, hc_memory s -> exists s', hc_setkey h s key iv = (0, s') /\ hc_ready s'.
  Proof.
    intros [k m] [(hm & Hw & Eg) Hh]. cbn [fst snd] in *. unfold hc_setkey.
    replace (length key =? 0)%nat with false by (destruct key; [congruence|reflexivity]).
    rewrite Eg.
    pose proof (hupdate_ok sha512_ops (swf cfg512) SHA512 (2 ^ 61) sha512_ops_ok 111 s512a s512b s512c
      (hash_drbg_zero sha512_ops 111 hm) None key iv (conj Hw eq_refl) Bk Bi Nk Lk Li) as R. cbv zeta in R.
    unfold hc_step at 1. cbn [hash_drbg_step]. unfold max_addtl. rewrite (proj2 (Z.ltb_ge (2 ^ 31) (Z.of_nat (length iv)))) by lia.
    replace (length key =? 0)%nat with false by (destruct key; [congruence|reflexivity]).
    set (d0 := mkHD sha512_ops _ _ _ 0 true) in *. clearbody d0.
    change (h_ds sha512_ops) with 64%nat in R. fold (hc_t0 key iv) in R. change (negb (0 =? 0)) with false. cbv iota.
    destruct (hc_next_ok d0 (hc_t0 key iv) R) as (d1 & E1 & R1); [unfold hc_t0, HD_instantiate; cbn [S_ctr]; lia|].
    fold (hc_t1 key iv) in R1. rewrite hc_auth_eq in E1. rewrite E1. change (negb (0 =? 0)) with false. cbv iota.
    destruct (hc_next_ok d1 (hc_t1 key iv) R1) as (d2 & E2 & R2);
      [unfold hc_t1; rewrite hd_after_ctr; unfold hc_t0, HD_instantiate; cbn [S_ctr]; lia|]. rewrite E2. change (negb (0 =? 0)) with false. cbv iota.
    eexists. split; [reflexivity|]. exists d1, m. split; [|exact (conj R1 Hh)].
    assert (En : hc_next d1 = (fst (hd_gen (hc_t1 key iv)), d2)) by (unfold hc_next; rewrite E2; reflexivity).
    rewrite setkey_gst, blkn_0, En. cbn [fst snd]. reflexivity.
  Qed.
  Definition hc_mac (x : list Z) (n : nat) : list Z := firstn n (HMAC H (h_bs h) (hc_auth key iv) x).
  Let okt (n : nat) : Prop := (n <= h_ds h)%nat.
  Lemma hc_auth_ok : length (hc_auth key iv) = 64%nat /\ bytes (hc_auth key iv).
  Proof. apply hd_gen_ok, bytes_t0. Qed.
  Lemma hmtag_ok : forall c K xs n, wf (hm_h h c) -> bytes K -> Z.of_nat (length K) < 2 ^ 60 -> Forall bytes xs ->
    Z.of_nat (length (concat xs)) < 2 ^ 60 -> okt n ->
    fst (sh_tag h (fold_left (hmac_update h) xs (hmac_init h c K)) n) = firstn n (HMAC H (h_bs h) K (concat xs)).
  Proof.
    intros c K xs n Hw HK LK Hx Hl Hn. unfold sh_tag.
    pose proof (ok_max _ _ _ _ OK) as M. pose proof (ok_bs _ _ _ _ OK) as M2.
    pose proof (hm_final h wf H maxlen OK c K xs Hw HK ltac:(lia) Hx ltac:(lia)) as E.
    destruct (hmac_final h _) as [t c']. cbn [fst] in *. subst t. destruct (Nat.ltb_spec n (h_ds h)); [reflexivity|].
    rewrite firstn_all2; [reflexivity|]. rewrite (MAC_length h wf H maxlen OK). exact H0.
  Qed.
  Lemma hctag_shtag : forall c n, hc_tag h c n = sh_tag h c n.
  Proof.
    intros c n. unfold hc_tag, sh_tag. rewrite (proj2 (Nat.ltb_ge _ _) (ok_ds64 _ _ _ _ OK)). reflexivity.
  Qed.
  Lemma hc_HT : forall s, hc_ready s -> forall xs n, Forall bytes xs -> Z.of_nat (length (concat xs)) < 2 ^ 52 -> okt n ->
    fst (hc_tag h (fold_left (hmac_update h) xs (snd s)) n) = hc_mac (concat xs) n.
  Proof.
    intros s (x0 & m0 & -> & _ & Hw) xs n Hx Hl Hn. cbn [snd]. rewrite hctag_shtag. destruct hc_auth_ok as [LA BA].
    apply hmtag_ok; auto; lia.
  Qed.
  Lemma hc_HTn : forall x n, bytes x -> okt n -> length (hc_mac x n) = n /\ bytes (hc_mac x n).
  Proof. intros x n Hx Hn. apply (hm_trunc h wf H maxlen OK); auto. apply hc_auth_ok. Qed.
  Lemma hc_capok : forall n, okt n -> hc_cap n = Some n.
  Proof.
    intros n Hn. unfold hc_cap. pose proof (ok_ds64 _ _ _ _ OK). unfold okt in Hn.
    rewrite (proj2 (Nat.ltb_ge _ _)) by lia. reflexivity.
  Qed.
  Lemma hc_ctr1 : S_ctr (hc_t1 key iv) = 2. Proof. unfold hc_t1. rewrite hd_after_ctr. reflexivity. Qed.
  Lemma hc_outs : forall x0, hrel512 x0 (Some (hc_t1 key iv)) -> forall K, Z.of_nat K <= 2 ^ 47 ->
    concat (kouts _ hc_next x0 K) = hc_stream key iv (64 * K) /\
    map (@length Z) (kouts _ hc_next x0 K) = repeat 64%nat K /\ bytes (hc_stream key iv (64 * K)).
  Proof.
    intros x0 R K HK. destruct (hc_kouts K x0 _ R) as (E1 & E2 & E3); [rewrite hc_ctr1; lia|].
    unfold hc_stream. rewrite (Nat.mul_comm 64 K), Nat.div_mul by lia. rewrite E1. auto.
  Qed.
  Lemma hc_blkn_eq : forall x0 x2, hrel512 x0 (Some (hc_t1 key iv)) -> hrel512 x2 (Some (hc_t1 key iv)) ->
    forall k, Z.of_nat k < 2 ^ 47 -> blkn _ hc_next x2 k = blkn _ hc_next x0 k.
  Proof.
    intros x0 x2 R0 R2 k Hk.
    destruct (hc_kouts (S k) x0 _ R0) as (E1 & _); [rewrite hc_ctr1; lia|].
    destruct (hc_kouts (S k) x2 _ R2) as (E2 & _); [rewrite hc_ctr1; lia|].
    rewrite kouts_blkn, seq_S, map_app in E1, E2. rewrite <- E1 in E2. apply app_inj_tail in E2. apply E2.
  Qed.
  Lemma hc_at : forall x0, ksat _ hc_next 64 (2 ^ 47) x0 0 (mkKS _ (gst _ hc_next x0 1) (blkn _ hc_next x0 0) 0).
  Proof. intros x0. exists 0%nat. cbn [ks_ptr]. repeat split; lia. Qed.
  Lemma hc_roundtrip : forall s1 s2, hc_ready s1 -> hc_ready s2 ->
    aead_roundtrip okt (2 ^ 52) any_split any_split (hc_enc_stream h s1) (fun st p1 p2 => hc_dec_stream h st p1 p2 s2).
  Proof.
    intros s1 s2 R1 R2. pose proof (hc_HT s1 R1) as T1. pose proof (hc_HT s2 R2) as T2.
    destruct R1 as (x0 & m0 & -> & Q0 & W0), R2 as (x2 & m2 & -> & Q2 & W2). cbn [snd] in T1, T2.
    pose proof (outs_len _ hc_next 64 P64' (2 ^ 47) x0 (hc_stream key iv) (hc_outs x0 Q0)) as Hlen.
    exact (gen_roundtrip _ _ _ _ _ _ _ _ _ okt (2 ^ 52) T1 hc_HTn hc_capok _ _ _ T2 _ _ _ (Z.le_refl _)
      (ks_HE _ hc_next 64 P64' (2 ^ 47) x0 Hlen 0 _ (hc_at x0) (2 ^ 52) hc_lim)
      (ks_HD _ hc_next 64 P64' (2 ^ 47) x0 Hlen 0 _ (hc_at x0) (2 ^ 52) hc_lim x2 _ (hc_blkn_eq x0 x2 Q0 Q2) (hc_at x2))).
  Qed.
  Lemma hc_verify : forall s, hc_ready s -> aead_verify hc_mac okt (2 ^ 52) (fun st p1 p2 => hc_dec_stream h st p1 p2 s).
  Proof.
    intros s R. pose proof (hc_HT s R) as T1. destruct s as [c m]. cbn [snd] in T1.
    exact (gen_verify _ _ hc_crypt _ _ _ _ m _ okt (2 ^ 52) hc_HTn hc_capok _ c c T1 (2 ^ 52) (Z.le_refl _)).
  Qed.
  Lemma hc_tag_ok : forall s, hc_ready s -> aead_tag hc_mac okt (2 ^ 52) any_split (hc_enc_stream h s).
  Proof.
    intros s R1. pose proof (hc_HT s R1) as T1. destruct R1 as (x0 & m0 & -> & Q0 & W0). cbn [snd] in T1.
    pose proof (outs_len _ hc_next 64 P64' (2 ^ 47) x0 (hc_stream key iv) (hc_outs x0 Q0)) as Hlen.
    exact (gen_tag _ _ _ _ _ _ _ okt (2 ^ 52) T1 hc_HTn _ _ _ (Z.le_refl _)
      (ks_HE _ hc_next 64 P64' (2 ^ 47) x0 Hlen 0 _ (hc_at x0) (2 ^ 52) hc_lim)).
  Qed.
  Lemma hc_cipher : forall s ps K, hc_ready s -> Forall bytes ps -> (length (concat ps) <= 64 * K)%nat -> Z.of_nat K <= 2 ^ 47 ->
    concat (fst (crun _ hc_crypt (fst s) ps)) = xorl (concat ps) (slice (hc_stream key iv (64 * K)) 0 (length (concat ps))).
  Proof.
    intros s ps K (x0 & m0 & -> & Q0 & W0) Hp Hl HK. unfold hc_crypt. cbn [fst].
    pose proof (outs_len _ hc_next 64 P64' (2 ^ 47) x0 (hc_stream key iv) (hc_outs x0 Q0)) as Hlen.
    destruct (ks_runs_ok _ hc_next 64 (2 ^ 47) x0 P64' Hlen ps _ 0 (hc_at x0)) as [E _]; [lia|]. rewrite E.
    rewrite (kslice_stream _ hc_next 64 P64' (2 ^ 47) x0 (hc_stream key iv) (hc_outs x0 Q0) 0 _ K HK Hl). reflexivity.
  Qed.
End HC.
