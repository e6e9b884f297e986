From Verif Require Import Bytes Words UtilModel UtilProof SpongeSpec Fips202 Sha3Model KeccakBytes Sha3Top Sha2Spec Sha2Model Sha2Proof
  HashIface KmacSpec KmacModel KmacProof MacSpec MacModel MacProof DrbgSpec DrbgModel DrbgProof XofDrngModel XofDrngProof
  AesSpec AesModel AesProof ModesSpec ModesModel ModesProof ChaChaProof SymTop AeadEtmModel.

(** ** The common part *)
Section Etm.
  Variables (C M : Type).
  Variable enc dec : C -> list Z -> list Z * C.
  Variable mupd : M -> list Z -> M.
  Variable mtag : M -> nat -> list Z * M.
  Variable cap : nat -> option nat.

  Fixpoint crun (f : C -> list Z -> list Z * C) (c : C) (xs : list (list Z)) : list (list Z) * C :=
    match xs with
    | [] => ([], c)
    | x :: xs' => let '(o, c1) := f c x in let '(os, c2) := crun f c1 xs' in (o :: os, c2)
    end.
  Lemma encs_split : forall ps c m,
    etm_encs C M enc mupd (c, m) ps =
    (fst (crun enc c ps), (snd (crun enc c ps), fold_left mupd (fst (crun enc c ps)) m)).
  Proof.
    induction ps as [|p ps IH]; intros c m; [reflexivity|]. cbn [etm_encs crun]. unfold etm_enc. cbn [fst snd].
    destruct (enc c p) as [o c1]. rewrite IH. destruct (crun enc c1 ps) as [os c2]. reflexivity.
  Qed.
  Lemma decs_split : forall cs c m,
    etm_decs C M dec mupd (c, m) cs =
    (fst (crun dec c cs), (snd (crun dec c cs), fold_left mupd cs m)).
  Proof.
    induction cs as [|p ps IH]; intros c m; [reflexivity|]. cbn [etm_decs crun]. unfold etm_dec. cbn [fst snd].
    destruct (dec c p) as [o c1]. rewrite IH. destruct (crun dec c1 ps) as [os c2]. reflexivity.
  Qed.

  Variable m : M.
  Variable T : list Z -> nat -> list Z.
  Variable okt : nat -> Prop.
  Variable mmax : Z.
  Hypothesis HT : forall xs n, Forall bytes xs -> Z.of_nat (length (concat xs)) < mmax -> okt n ->
    fst (mtag (fold_left mupd xs m) n) = T (concat xs) n.
  Hypothesis HTn : forall x n, bytes x -> okt n -> length (T x n) = n /\ bytes (T x n).
  Hypothesis Hcap : forall n, okt n -> cap n = Some n.

  Lemma tag_written : forall c xs buf, Forall bytes xs -> bytes (concat xs) -> Z.of_nat (length (concat xs)) < mmax ->
    okt (length buf) ->
    fst (etm_tag C M mtag (c, fold_left mupd xs m) buf) = T (concat xs) (length buf).
  Proof.
    intros c xs buf Hx Hb Hl Ht. unfold etm_tag. cbn [fst snd].
    pose proof (HT xs (length buf) Hx Hl Ht) as E. destruct (mtag _ _) as [t m']. cbn [fst] in *. subst t.
    destruct (HTn (concat xs) (length buf) Hb Ht) as [L _]. rewrite L, skipn_all, app_nil_r. reflexivity.
  Qed.

  Lemma enc_stream_ok : forall c aad ps buf, bytes aad -> Forall bytes (fst (crun enc c ps)) ->
    Z.of_nat (length aad + length (concat (fst (crun enc c ps)))) < mmax -> okt (length buf) ->
    etm_encrypt_stream C M enc mupd mtag (c, m) aad ps buf =
    (fst (crun enc c ps), T (aad ++ concat (fst (crun enc c ps))) (length buf)).
  Proof.
    intros c aad ps buf Ha Hc Hl Ht. unfold etm_encrypt_stream, etm_aad. cbn [fst snd]. rewrite encs_split.
    set (cs := fst (crun enc c ps)) in *. apply f_equal2; [reflexivity|].
    apply (tag_written (snd (crun enc c ps)) (aad :: cs) buf).
    - constructor; assumption.
    - cbn [concat]. apply bytes_app; [exact Ha|]. apply bytes_concat, Hc.
    - cbn [concat]. rewrite app_length. exact Hl.
    - exact Ht.
  Qed.
  Lemma dec_stream_ok : forall stack p1 p2 c aad cs tag, bytes aad -> Forall bytes cs -> bytes tag ->
    length (stack (length tag)) = length tag ->
    Z.of_nat (length aad + length (concat cs)) < mmax -> okt (length tag) ->
    fst (etm_decrypt_stream C M dec mupd mtag cap stack p1 p2 (c, m) aad cs tag) = fst (crun dec c cs) /\
    (tag = T (aad ++ concat cs) (length tag) ->
      snd (etm_decrypt_stream C M dec mupd mtag cap stack p1 p2 (c, m) aad cs tag) = 0) /\
    (tag <> T (aad ++ concat cs) (length tag) ->
      snd (etm_decrypt_stream C M dec mupd mtag cap stack p1 p2 (c, m) aad cs tag) = -74).
  Proof.
    intros stack p1 p2 c aad cs tag Ha Hc Htg Hs Hl Ht. unfold etm_decrypt_stream, etm_aad. cbn [fst snd].
    rewrite decs_split. split; [reflexivity|]. cbn [snd].
    unfold etm_auth. rewrite Hcap by exact Ht.
    assert (Bc : bytes (concat (aad :: cs))) by (cbn [concat]; apply bytes_app; [exact Ha|apply bytes_concat, Hc]).
    pose proof (tag_written (snd (crun dec c cs)) (aad :: cs) (stack (length tag))) as X.
    rewrite Hs in X. specialize (X ltac:(constructor; assumption) Bc ltac:(cbn [concat]; rewrite app_length; exact Hl) Ht).
    cbn [fold_left] in X. destruct (etm_tag _ _ _ _ _) as [calc s']. cbn [fst] in X |- *.
    rewrite firstn_all. destruct (HTn _ (length tag) Bc Ht) as [L B]. cbn [concat] in X, L, B.
    destruct (memcmp_spec p1 calc p2 tag) as [E _]; [rewrite X; exact B|exact Htg|].
    rewrite X in *. destruct (Z.eqb_spec (lc_memcmp_secure p1 (T (aad ++ concat cs) (length tag)) p2 tag) 0) as [Z|Z].
    - apply E in Z. split; [auto|]. intros N. exfalso. apply N. auto.
    - split; [|auto]. intros N. exfalso. apply Z, E. auto.
  Qed.
End Etm.

(** ** Key streams *)
Section Ks.
  Variable X : Type.
  Variable next : X -> list Z * X.
  Variable B : nat.
  Variable KZ : Z.
  Variable x0 : X.
  Definition gst (k : nat) : X := Nat.iter k (fun x => snd (next x)) x0.
  Definition blkn (k : nat) : list Z := fst (next (gst k)).
  Definition kbyte (i : nat) : Z := nth (i mod B) (blkn (i / B)) 0.
  Hypothesis HB : (0 < B)%nat.
  Hypothesis Hlen : forall k, Z.of_nat k < KZ -> length (blkn k) = B /\ bytes (blkn k).
  (** The position in the stream: the buffer holds block k, [ptr] bytes of it are used. *)
  Definition ksat (pos : nat) (s : ks X) : Prop :=
    exists k, s = mkKS X (gst (S k)) (blkn k) (ks_ptr X s) /\ (ks_ptr X s <= B)%nat /\ pos = (B * k + ks_ptr X s)%nat /\
      Z.of_nat k < KZ.
  Definition kslice (pos n : nat) : list Z := map kbyte (seq pos n).

  Lemma kslice_block : forall k p n, Z.of_nat k < KZ -> (p + n <= B)%nat -> kslice (B * k + p) n = slice (blkn k) p n.
  Proof.
    intros k p n Hk Hp. destruct (Hlen k Hk) as [L _]. apply nth_ext0.
    - unfold kslice, slice. rewrite map_length, seq_length, firstn_length, skipn_length. lia.
    - intros i Hi. unfold kslice in *. rewrite map_length, seq_length in Hi.
      rewrite (nth_indep _ 0 (kbyte 0)) by (rewrite map_length, seq_length; exact Hi).
      rewrite map_nth, seq_nth by exact Hi. unfold kbyte.
      replace (B * k + p + i)%nat with (p + i + k * B)%nat by lia.
      rewrite Nat.mod_add, Nat.div_add by lia. rewrite Nat.mod_small, Nat.div_small by lia. cbn [Nat.add].
      rewrite nth_slice by lia. reflexivity.
  Qed.
  Lemma kslice_app : forall p a b, kslice p (a + b) = kslice p a ++ kslice (p + a) b.
  Proof. intros. unfold kslice. rewrite seq_app, map_app. reflexivity. Qed.
  Lemma length_kslice : forall p n, length (kslice p n) = n.
  Proof. intros. unfold kslice. rewrite map_length, seq_length. reflexivity. Qed.

  Lemma ks_crypt_ok : forall f s inp pos, (length inp <= f)%nat -> ksat pos s ->
    Z.of_nat (pos + length inp) <= Z.of_nat B * KZ ->
    exists s', ks_crypt X next B f s inp = (xorl inp (kslice pos (length inp)), s') /\ ksat (pos + length inp) s'.
  Proof.
    induction f as [|f IH]; intros s inp pos Hl Hs Hz.
    { destruct inp; [|cbn in Hl; lia]. exists s. split; [reflexivity|]. rewrite Nat.add_0_r. exact Hs. }
    cbn [ks_crypt]. destruct (Nat.eqb_spec (length inp) 0) as [E|E].
    { destruct inp; [|discriminate]. exists s. split; [reflexivity|]. rewrite Nat.add_0_r. exact Hs. }
    destruct Hs as (k & Es & Hp & Epos & Hk).
    (* after the refill *)
    assert (R : exists k' p, (if (B <=? ks_ptr X s)%nat then let '(o, x) := next (ks_gen X s) in mkKS X x o 0 else s)
                  = mkKS X (gst (S k')) (blkn k') p /\ (p < B)%nat /\ pos = (B * k' + p)%nat /\ Z.of_nat k' < KZ).
    { destruct (Nat.leb_spec B (ks_ptr X s)).
      - exists (S k), 0%nat. rewrite Es. cbn [ks_gen]. split.
        + unfold blkn. cbn [gst Nat.iter]. unfold gst. cbn [Nat.iter nat_rect].
          destruct (next (snd (next (nat_rect _ x0 (fun _ x => snd (next x)) k)))) as [o x]. reflexivity.
        + split; [exact HB|]. split; [lia|]. assert (Z.of_nat B * (Z.of_nat k + 1) < Z.of_nat B * KZ) by nia. nia.
      - exists k, (ks_ptr X s). rewrite Es at 1. repeat split; auto; lia. }
    destruct R as (k' & p & -> & Hp' & Epos' & Hk'). cbn [ks_gen ks_buf ks_ptr].
    set (todo := Nat.min (Nat.min (length inp) B) (B - p)) in *.
    assert (T1 : (0 < todo <= length inp)%nat) by lia.
    destruct (IH (mkKS X (gst (S k')) (blkn k') (p + todo)) (skipn todo inp) (pos + todo)%nat) as (s' & E1 & E2).
    - rewrite skipn_length. lia.
    - exists k'. cbn [ks_ptr]. repeat split; auto; lia.
    - rewrite skipn_length. lia.
    - rewrite E1. exists s'. rewrite skipn_length in *. split.
      + apply f_equal2; [|reflexivity].
        replace (length inp) with (todo + (length inp - todo))%nat at 2 by lia. rewrite kslice_app.
        rewrite Epos' at 2. rewrite kslice_block by (auto; lia).
        transitivity (xorl (firstn todo inp ++ skipn todo inp) (slice (blkn k') p todo ++ kslice (pos + todo) (length inp - todo)));
          [|rewrite firstn_skipn; reflexivity].
        rewrite xorl_app; [reflexivity|].
        rewrite firstn_length. unfold slice. rewrite firstn_length, skipn_length. destruct (Hlen k' Hk'). lia.
      + replace (pos + length inp)%nat with (pos + todo + (length inp - todo))%nat by lia. exact E2.
  Qed.

  Lemma ks_runs_ok : forall xs s pos, ksat pos s -> Z.of_nat (pos + length (concat xs)) <= Z.of_nat B * KZ ->
    concat (fst (crun _ (ks_run X next B) s xs)) = xorl (concat xs) (kslice pos (length (concat xs))) /\
    map (@length Z) (fst (crun _ (ks_run X next B) s xs)) = map (@length Z) xs.
  Proof.
    induction xs as [|x xs IH]; intros s pos Hs Hz; [split; reflexivity|].
    cbn [crun concat] in *. unfold ks_run at 1 3. rewrite app_length in Hz.
    destruct (ks_crypt_ok (length x) s x pos (le_n _) Hs) as (s1 & -> & H1); [lia|].
    destruct (IH s1 (pos + length x)%nat H1 ltac:(lia)) as [E1 E2].
    destruct (crun _ (ks_run X next B) s1 xs) as [os s2]. cbn [fst concat map] in *. split.
    - rewrite E1, app_length, kslice_app, xorl_app by (rewrite length_kslice; reflexivity). reflexivity.
    - rewrite E2. f_equal. rewrite length_xorl; rewrite ?length_kslice; lia.
  Qed.
  Lemma bytes_kslice : forall pos n, Z.of_nat (pos + n) <= Z.of_nat B * KZ -> bytes (kslice pos n).
  Proof.
    intros pos n Hz. unfold kslice. apply Forall_forall. intros y Hy. apply in_map_iff in Hy. destruct Hy as (i & <- & Hi).
    apply in_seq in Hi. unfold kbyte. apply bytes_nth. apply Hlen.
    pose proof (Nat.div_mod i B ltac:(lia)). pose proof (Nat.mod_upper_bound i B ltac:(lia)). nia.
  Qed.
  Lemma ks_runs_bytes : forall xs s pos, ksat pos s -> Z.of_nat (pos + length (concat xs)) <= Z.of_nat B * KZ ->
    Forall bytes xs -> Forall bytes (fst (crun _ (ks_run X next B) s xs)).
  Proof.
    induction xs as [|x xs IH]; intros s pos Hs Hz Hb; [constructor|].
    cbn [crun concat] in *. unfold ks_run at 1. rewrite app_length in Hz.
    destruct (ks_crypt_ok (length x) s x pos (le_n _) Hs) as (s1 & -> & H1); [lia|].
    pose proof (IH s1 (pos + length x)%nat H1 ltac:(lia) (Forall_inv_tail Hb)) as E.
    destruct (crun _ (ks_run X next B) s1 xs) as [os s2]. cbn [fst] in *. constructor; [|exact E].
    apply bytes_xorl; [exact (Forall_inv Hb)|apply bytes_kslice; lia].
  Qed.
  (** Decrypting any other cutting of the same bytes gives the plaintext back. *)
  Lemma ks_roundtrip : forall xs ys s pos, ksat pos s -> Z.of_nat (pos + length (concat xs)) <= Z.of_nat B * KZ ->
    concat ys = concat (fst (crun _ (ks_run X next B) s xs)) ->
    concat (fst (crun _ (ks_run X next B) s ys)) = concat xs.
  Proof.
    intros xs ys s pos Hs Hz E. destruct (ks_runs_ok xs s pos Hs Hz) as [E1 _]. rewrite E1 in E.
    assert (L : length (concat ys) = length (concat xs)) by (rewrite E; rewrite length_xorl; rewrite ?length_kslice; lia).
    destruct (ks_runs_ok ys s pos Hs ltac:(lia)) as [E2 _]. rewrite E2, L, E.
    apply xorl_cancel. rewrite length_kslice. lia.
  Qed.
End Ks.
