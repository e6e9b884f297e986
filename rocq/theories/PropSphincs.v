(** C70-C75: SLH-DSA. Specification: SlhSpec.v (FIPS 205). *)
From Verif Require Import Bytes Words Fips202 Sha2Spec Sha2Model Sha2Proof PropSha2 KeccakModel Sha3Model KeccakBytes PropHash UtilModel UtilProof KyberModel KyberSample
  DilithiumSample DilithiumKat SphincsModel SphincsApiModel SlhSpec SlhCorrect SphincsAddr SphincsProof SlhVectors.

(** the rows of Table 2 of FIPS 205 by type *)
Definition row (t : stype) : slhp :=
  match t with S256s => SLH_256s | S256f => SLH_256f | S192s => SLH_192s | S192f => SLH_192f | S128s => SLH_128s | S128f => SLH_128f end.
Definition category (t : stype) : Z := match t with S256s | S256f => 5 | S192s | S192f => 3 | S128s | S128f => 1 end.
Lemma row_ok : forall t, sp_ok (set_of t) (row t).
Proof. intros t. apply pairs_ok. destruct t; cbn; tauto. Qed.

(** HashSLH-DSA (10.2.2): the last arc of the object identifier of a hash function, and the security categories it serves *)
Definition hash_arc (h : prehash) : option (Z * Z) :=
  match h with
  | PH_sha256 => Some (1, 1) | PH_sha3_256 => Some (8, 1) | PH_shake128 => Some (11, 1)
  | PH_sha384 => Some (2, 3) | PH_sha3_384 => Some (9, 3)
  | PH_sha512 => Some (3, 5) | PH_sha3_512 => Some (10, 5) | PH_shake256 => Some (12, 5)
  | PH_other _ => None
  end.
(** DER encoding of 2.16.840.1.101.3.4.2.x *)
Definition hash_oid (x : Z) : list Z := [6; 9; 2 * 40 + 16; 134; 72; 1; 101; 3; 4; 2; x].
(** the message representative M' of Algorithms 22-25 for a context; [m] is the message or, with a hash function set, its
    digest. [None]: the context is refused *)
Definition M' (t : stype) (c : spctx) (m : list Z) : option (list Z) :=
  if sc_internal c then Some m
  else if (length (sc_userctx c) <=? 255)%nat then
    match sc_prehash c with
    | None => Some (slh_message (sc_userctx c) m)
    | Some h => match hash_arc h with
                | Some (x, strength) => if category t <=? strength then Some (hash_slh_message (sc_userctx c) (hash_oid x) m) else None
                | None => None
                end
    end
  else None.
Lemma sep_M : forall t c m, match M' t c m with Some b => sep (set_of t) c m = (0, b) | None => fst (sep (set_of t) c m) < 0 end.
Proof.
  intros t c m. unfold M', sep, signature_domain_separation. destruct (sc_internal c). { cbn. reflexivity. }
  destruct (Nat.leb_spec (length (sc_userctx c)) 255) as [L|L].
  - replace (255 <? length (sc_userctx c))%nat with false by (symmetry; apply Nat.ltb_ge; lia).
    assert (B : [u8 (Z.of_nat (length (sc_userctx c)))] = toByte (Z.of_nat (length (sc_userctx c))) 1).
    { unfold toByte. cbn [seq map Nat.sub]. change (256 ^ Z.of_nat 0) with 1. rewrite Z.div_1_r. reflexivity. }
    destruct (sc_prehash c) as [h|].
    + destruct t; destruct h; cbn -[u8 toByte app]; try lia; unfold hash_slh_message; rewrite <- B; apply f_equal; rewrite <- !app_assoc; reflexivity.
    + cbn -[u8 toByte app]. unfold slh_message. rewrite <- B. apply f_equal. rewrite <- !app_assoc. reflexivity.
  - replace (255 <? length (sc_userctx c))%nat with true by (symmetry; apply Nat.ltb_lt; lia). cbn. lia.
Qed.

(** what the memory of a key or signature object holds *)
Definition pk_mem (o : obj) : Prop := bytes (ob_mem o) /\ length (ob_mem o) = 64%nat.
Definition sk_mem (o : obj) : Prop := bytes (ob_mem o) /\ length (ob_mem o) = 128%nat.
Definition sig_mem (o : obj) : Prop := bytes (ob_mem o) /\ length (ob_mem o) = 49856%nat.
(** lc_rng_generate succeeds and delivers n bytes, or no RNG is given and PK.seed takes its place *)
Definition randomizer (t : stype) (rng : option (Z * list Z)) (PKseed rnd : list Z) : Prop :=
  (rng = None /\ rnd = PKseed) \/ (rng = Some (0, rnd) /\ bytes rnd /\ length rnd = f_n (row t)).
Definition str (t : stype) (x : list Z) : Prop := bytes x /\ length x = f_n (row t).

Lemma str_node : forall t x, str t x -> node (sp_n (set_of t)) x.
Proof. intros t x [B L]. split; auto. rewrite L. apply (ok_n _ _ (row_ok t)). Qed.
Lemma member_put : forall size t o b t', (length b <= length (ob_mem o))%nat -> length b = size (set_of t) -> member size t (put o t' b) = b.
Proof.
  intros size t o b t' L E. unfold member, put, store_at. cbn [ob_mem firstn app Nat.add]. rewrite Nat.sub_0_r. rewrite (firstn_all2 b) by lia. rewrite <- E. apply firstn_length_app.
Qed.
Lemma sizes : forall t, sp_pk (set_of t) = (2 * f_n (row t))%nat /\ sp_sk (set_of t) = (4 * f_n (row t))%nat /\ (16 <= f_n (row t) <= 32)%nat /\
  sp_sig (set_of t) = SlhSpec.sig_bytes (row t) /\ (SlhSpec.sig_bytes (row t) <= 49856)%nat.
Proof.
  intros t. pose proof (row_ok t) as K. destruct (sig_eq _ _ K) as (E & _). rewrite <- E. unfold sp_sk, sp_pk. rewrite (ok_n _ _ K). pose proof (ok_n32 _ _ K).
  repeat split; try lia. destruct t; apply Nat.leb_le; vm_compute; reflexivity.
Qed.
Lemma sig_len : forall t pub M ss sp root rnd, length (slh_sign_internal (row t) pub M ss sp root rnd) = SlhSpec.sig_bytes (row t).
Proof.
  intros t pub M ss sp root rnd. unfold slh_sign_internal. cbv zeta. rewrite !app_length. unfold ht_sign. rewrite ht_sign_len, fors_sign_len. unfold PRF_msg. rewrite SHAKE256_len.
  pose proof (ok_hd _ _ (row_ok t)) as HD. unfold SlhSpec.sig_bytes, fors_piece, xmss_bytes. rewrite HD. ring.
Qed.

Lemma concat_bytes : forall (A : Type) (f : A -> list Z) l, (forall i, bytes (f i)) -> bytes (concat (map f l)).
Proof. intros A f l H. induction l as [|a l IH]; cbn. constructor. apply bytes_app; auto. Qed.
Section SignBytes.
  Variable t : stype.
  Variables pub ss : list Z.
  Hypothesis Np : str t pub.
  Hypothesis Ns : str t ss.
  Let K := row_ok t.
  Lemma xmss_str : forall A z i, bytes (xmss_node (row t) pub ss i z A).
  Proof. intros. apply (proj1 (xmss_node_node _ _ K _ _ (str_node _ _ Np) (str_node _ _ Ns) A z i)). Qed.
  Lemma skgen_str : forall A i, bytes (fors_skGen (row t) pub ss A i).
  Proof. intros. apply (proj1 (skGen_node _ _ K _ _ (str_node _ _ Np) (str_node _ _ Ns) A i)). Qed.
  Lemma T_str : forall A x, bytes x -> bytes (T_l (row t) pub A x).
  Proof. intros A x B. unfold T_l. apply SHAKE256_bytes. apply bytes_app; [apply Np|]. apply bytes_app; [apply adrs_isbytes|auto]. Qed.
  Lemma fors_str : forall A z i, bytes (fors_node (row t) pub ss i z A).
  Proof. intros A z. induction z; intros i; cbn [fors_node]; apply T_str. apply skgen_str. apply bytes_app; apply IHz. Qed.
  Lemma chain_str : forall X i k A, bytes X -> bytes (chain (row t) pub X i k A).
  Proof. intros X i k A B. induction k; cbn [chain]; auto. apply T_str; auto. Qed.
  Lemma ht_str : forall todo j M tree leaf, bytes (ht_sign_from (row t) pub todo j M ss tree leaf).
  Proof.
    intros todo. induction todo as [|todo IH]; intros; cbn [ht_sign_from]. constructor. cbv zeta. apply bytes_app; [|apply IH].
    unfold xmss_sign. apply bytes_app. unfold wots_sign. apply concat_bytes. intros i. apply chain_str. unfold wots_sk, SlhSpec.PRF. apply SHAKE256_bytes.
    apply bytes_app; [apply Np|]. apply bytes_app; [apply adrs_isbytes|apply Ns]. apply concat_bytes. intros i. apply xmss_str.
  Qed.
  Lemma sign_bytes : forall M sp root rnd, str t sp -> str t rnd -> bytes M -> bytes (slh_sign_internal (row t) pub M ss sp root rnd).
  Proof.
    intros M sp root rnd N1 N2 BM. unfold slh_sign_internal. cbv zeta. apply bytes_app. apply SHAKE256_bytes. repeat apply bytes_app; auto. apply N1. apply N2.
    apply bytes_app; [|apply ht_str].
    unfold SlhSpec.fors_sign. apply concat_bytes. intros i. apply bytes_app. apply skgen_str. apply concat_bytes. intros j. apply fors_str.
  Qed.
  Lemma root_str : str t (slh_root (row t) pub ss).
  Proof. unfold slh_root. split. apply xmss_str. apply xmss_node_len. Qed.
End SignBytes.
Lemma M'_bytes : forall t c m b, bytes (sc_userctx c) -> bytes m -> M' t c m = Some b -> bytes b.
Proof.
  intros t c m b Bu Bm E. unfold M' in E. destruct (sc_internal c). injection E as <-. exact Bm.
  assert (TB : forall x k, bytes (toByte x k)). { intros. unfold toByte, bytes. apply Forall_forall. intros y H. apply in_map_iff in H. destruct H as (z & <- & _). unfold byte. apply Z.mod_pos_bound. lia. }
  destruct (_ <=? _)%nat; [|discriminate]. destruct (sc_prehash c) as [h|].
  - assert (OB : forall x s, hash_arc h = Some (x, s) -> bytes (hash_oid x)).
    { intros x s H. destruct h; injection H as <- <- || discriminate H; unfold hash_oid; repeat (apply Forall_cons; [unfold byte; lia|]); apply Forall_nil. }
    destruct (hash_arc h) as [[x s]|]; [|discriminate]. destruct (_ <=? _); [|discriminate]. injection E as <-. unfold hash_slh_message. repeat apply bytes_app; eauto.
  - injection E as <-. unfold slh_message. repeat apply bytes_app; auto.
Qed.
Lemma sign_R : forall p pub M ss sp root rnd, firstn (f_n p) (slh_sign_internal p pub M ss sp root rnd) = PRF_msg p sp rnd M.
Proof.
  intros. unfold slh_sign_internal. cbv zeta. set (R := PRF_msg p sp rnd M). assert (L : length R = f_n p) by apply SHAKE256_len. clearbody R. rewrite <- L. apply firstn_length_app.
Qed.
Global Opaque slh_root slh_sign_internal.

(** ** C71: key generation, signing and verification are FIPS 205 *)
Theorem C71_keygen : forall t pk sk SKseed SKprf PKseed, pk_mem pk -> sk_mem sk -> str t SKseed -> str t SKprf -> str t PKseed ->
  exists pk' sk', api_keypair (Some pk) (Some sk) (Some (0, SKseed ++ SKprf ++ PKseed)) (Some t) = Some (0, Some pk', Some sk') /\
    ob_type pk' = Some t /\ ob_type sk' = Some t /\ pk_mem pk' /\ sk_mem sk' /\
    member sp_pk t pk' = PKseed ++ slh_root (row t) PKseed SKseed /\
    member sp_sk t sk' = SKseed ++ SKprf ++ PKseed ++ slh_root (row t) PKseed SKseed.
Proof.
  intros t pk sk SKseed SKprf PKseed [Bp Lp] [Bs Ls] H1 H2 H3. pose proof (row_ok t) as K. destruct (sizes t) as (Z1 & Z2 & Z3 & _).
  pose proof (str_node t _ H1) as N1. pose proof (str_node t _ H2) as N2. pose proof (str_node t _ H3) as N3. pose proof (ok_n _ _ K) as EN.
  unfold api_keypair. rewrite (keypair_ok _ _ K); auto.
  2:{ apply bytes_firstn; auto. } 2:{ unfold member. rewrite firstn_length. lia. }
  assert (NR : node (sp_n (set_of t)) (slh_root (row t) PKseed SKseed)) by (apply str_node, root_str; auto).
  set (root := slh_root (row t) PKseed SKseed) in *. clearbody root. rewrite <- !app_assoc.
  assert (LP : length (PKseed ++ root) = sp_pk (set_of t)) by (rewrite app_length, (proj2 N3), (proj2 NR), Z1; lia).
  assert (LS : length (SKseed ++ SKprf ++ PKseed ++ root) = sp_sk (set_of t)) by (rewrite !app_length, (proj2 N1), (proj2 N2), (proj2 N3), (proj2 NR), Z2; lia).
  eexists _, _. split; [reflexivity|]. split; [reflexivity|]. split; [reflexivity|].
  assert (BP : bytes (PKseed ++ root)) by (apply bytes_app; [apply N3|apply NR]).
  assert (BS : bytes (SKseed ++ SKprf ++ PKseed ++ root)) by (apply bytes_app; [apply N1|apply bytes_app; [apply N2|exact BP]]).
  split; [|split]; [..|split].
  - split. unfold put. cbn [ob_mem]. unfold store_at. repeat apply bytes_app; [apply bytes_firstn; auto|apply bytes_firstn; auto|apply bytes_skipn; auto].
    unfold put. cbn [ob_mem]. rewrite store_at_length; lia.
  - split. unfold put. cbn [ob_mem]. unfold store_at. repeat apply bytes_app; [apply bytes_firstn; auto|apply bytes_firstn; auto|apply bytes_skipn; auto].
    unfold put. cbn [ob_mem]. rewrite store_at_length; lia.
  - apply member_put; lia.
  - apply member_put; lia.
Qed.
Print Assumptions C71_keygen.

Theorem C71_sign : forall t sg sk SKseed SKprf PKseed PKroot c m rng rnd b, sig_mem sg -> ob_type sk = Some t ->
  member sp_sk t sk = SKseed ++ SKprf ++ PKseed ++ PKroot -> str t SKseed -> str t SKprf -> str t PKseed -> str t PKroot ->
  bytes (sc_userctx c) -> bytes m -> Z.of_nat (length m) < 2 ^ 64 - 1000 -> M' t c m = Some b -> randomizer t rng PKseed rnd ->
  exists sg', api_sign_ctx (Some sg) c m (Some sk) rng = Some (0, Some sg') /\ ob_type sg' = Some t /\ sig_mem sg' /\
    member sp_sig t sg' = slh_sign_internal (row t) PKseed b SKseed SKprf PKroot rnd.
Proof.
  intros t sg sk SKseed SKprf PKseed PKroot c m rng rnd b [Bg Lg] Ht Es H1 H2 H3 H4 Bu Bm Lm EM HR. pose proof (row_ok t) as K. destruct (sizes t) as (Z1 & Z2 & Z3 & Z4 & Z5).
  pose proof (sep_M t c m) as SM. rewrite EM in SM.
  assert (Nr : str t rnd) by (destruct HR as [[_ ->]|(_ & B & L)]; [exact H3|split; auto]).
  unfold api_sign_ctx. rewrite Ht, Es. rewrite (sign_ok _ _ K _ c m SKseed SKprf PKseed PKroot rng b rnd); auto using str_node; try lia.
  - pose proof (sig_len t PKseed b SKseed SKprf PKroot rnd) as LS. set (s := slh_sign_internal _ _ _ _ _ _ _) in *.
    assert (BS : bytes s) by (apply sign_bytes; auto; eapply M'_bytes; eauto).
    clearbody s. eexists. split; [reflexivity|]. split; [reflexivity|]. split; [split|].
    + unfold put. cbn [ob_mem]. unfold store_at. repeat apply bytes_app; [apply bytes_firstn; auto|apply bytes_firstn; auto|apply bytes_skipn; auto].
    + unfold put. cbn [ob_mem]. rewrite store_at_length; lia.
    + apply member_put; lia.
  - destruct HR as [[-> ->]|(-> & _)]; auto.
  - apply bytes_firstn; auto.
  - unfold member. rewrite firstn_length. lia.
Qed.

Print Assumptions C71_sign.

(** the verdict: 0 exactly for the signatures Algorithm 20 accepts, -EBADMSG otherwise *)
Theorem C71_verify : forall t sg pk PKseed PKroot c m b ad1 ad2, sig_mem sg -> ob_type sg = Some t -> ob_type pk = Some t ->
  member sp_pk t pk = PKseed ++ PKroot -> str t PKseed -> str t PKroot ->
  bytes (sc_userctx c) -> bytes m -> Z.of_nat (length m) < 2 ^ 64 - 1000 -> M' t c m = Some b ->
  (slh_verify_internal (row t) PKseed b (member sp_sig t sg) PKroot -> api_verify_ctx ad1 ad2 (Some sg) c m (Some pk) = 0) /\
  (~ slh_verify_internal (row t) PKseed b (member sp_sig t sg) PKroot -> api_verify_ctx ad1 ad2 (Some sg) c m (Some pk) = - EBADMSG).
Proof.
  intros t sg pk PKseed PKroot c m b ad1 ad2 [Bg Lg] Tg Tp Ep H1 H2 Bu Bm Lm EM. pose proof (row_ok t) as K. destruct (sizes t) as (_ & _ & _ & Z4 & Z5).
  pose proof (sep_M t c m) as SM. rewrite EM in SM. unfold api_verify_ctx. rewrite Tg, Tp, Ep. replace (stype_eqb (Some t) (Some t)) with true by (destruct t; reflexivity). cbn [negb].
  destruct (verify_ok _ _ K ad1 ad2 (member sp_sig t sg) c m PKseed PKroot b) as [V1 V2]; auto using str_node; try lia.
  { apply bytes_firstn; auto. } { unfold member. rewrite firstn_length. lia. }
  split. { apply V1. } intros N. destruct V2; auto. tauto.
Qed.
Print Assumptions C71_verify.

(** ** C70: what a generated key signs, verifies *)
Theorem C70_sign_verify : forall t pk sk seeds sg c m rng rnd ad1 ad2, pk_mem pk -> sk_mem sk -> sig_mem sg ->
  bytes seeds -> length seeds = (3 * f_n (row t))%nat ->
  bytes (sc_userctx c) -> bytes m -> Z.of_nat (length m) < 2 ^ 64 - 1000 -> M' t c m <> None ->
  randomizer t rng (skipn (2 * f_n (row t)) seeds) rnd ->
  exists pk' sk' sg',
    api_keypair (Some pk) (Some sk) (Some (0, seeds)) (Some t) = Some (0, Some pk', Some sk') /\
    api_sign_ctx (Some sg) c m (Some sk') rng = Some (0, Some sg') /\
    api_verify_ctx ad1 ad2 (Some sg') c m (Some pk') = 0.
Proof.
  intros t pk sk seeds sg c m rng rnd ad1 ad2 Mp Ms Mg Bs Ls Bu Bm Lm EM HR. set (n := f_n (row t)) in *.
  destruct (M' t c m) as [b|] eqn:E; [|congruence]. clear EM.
  assert (ES : seeds = firstn n seeds ++ slice seeds n n ++ skipn (2 * n) seeds).
  { unfold slice. replace (skipn (2 * n) seeds) with (skipn n (skipn n seeds)) by (rewrite skipn_skipn'; f_equal; lia). rewrite !firstn_skipn. reflexivity. }
  assert (N1 : str t (firstn n seeds)) by (split; [apply bytes_firstn; auto|rewrite firstn_length; fold n; lia]).
  assert (N2 : str t (slice seeds n n)) by (split; [apply bytes_slice; auto|rewrite length_slice; fold n; lia]).
  assert (N3 : str t (skipn (2 * n) seeds)) by (split; [apply bytes_skipn; auto|rewrite skipn_length; fold n; lia]).
  destruct (C71_keygen t pk sk _ _ _ Mp Ms N1 N2 N3) as (pk' & sk' & EK & T1 & T2 & Mp' & Ms' & E1 & E2).
  pose proof (root_str t _ _ N3 N1) as NR. rewrite <- ES in EK.
  destruct (C71_sign t sg sk' _ _ _ _ c m rng rnd b Mg T2 E2 N1 N2 N3 NR Bu Bm Lm E HR) as (sg' & ESg & T3 & Mg' & E3).
  exists pk', sk', sg'. split; [exact EK|]. split; [exact ESg|].
  apply (proj1 (C71_verify t sg' pk' _ _ c m b ad1 ad2 Mg' T3 T1 E1 N3 NR Bu Bm Lm E)). rewrite E3.
  apply slh_correct. destruct t; cbn; lia. apply (ok_hd _ _ (row_ok t)).
Qed.
Print Assumptions C70_sign_verify.

(** SLH-DSA-SHAKE-192f with a context string of three bytes and SHA3-384 as hash function, no RNG for the signature *)
Definition case_ctx : spctx := mkSC None (Some PH_sha3_384) [1; 2; 3] false.
Lemma case_bytes : forall k x, 0 <= x < 256 -> bytes (repeat x k).
Proof. intros k x H. apply Forall_forall. intros y Hy. apply repeat_spec in Hy. subst y. exact H. Qed.
Example C70_case : exists pk' sk' sg',
  api_keypair (Some (mkObj None (repeat 9 64))) (Some (mkObj (Some S128s) (repeat 8 128))) (Some (0, repeat 5 72)) (Some S192f) = Some (0, Some pk', Some sk') /\
  api_sign_ctx (Some (mkObj None (repeat 7 49856))) case_ctx (repeat 6 48) (Some sk') None = Some (0, Some sg') /\
  api_verify_ctx 4096 8192 (Some sg') case_ctx (repeat 6 48) (Some pk') = 0.
Proof.
  apply (C70_sign_verify S192f) with (rnd := repeat 5 24).
  - split; [apply case_bytes; lia|reflexivity].
  - split; [apply case_bytes; lia|reflexivity].
  - split; [apply case_bytes; lia|apply repeat_length].
  - apply case_bytes; lia.
  - reflexivity.
  - repeat (apply Forall_cons; [unfold byte; lia|]); apply Forall_nil.
  - apply case_bytes; lia.
  - rewrite repeat_length. lia.
  - cbn. discriminate.
  - left. split; reflexivity.
Qed.
(** the hypotheses of C71 at one key *)
Example C71_case : exists sg', api_sign_ctx (Some (mkObj None (repeat 7 49856))) case_ctx (repeat 6 48) (Some (mkObj (Some S192f) (repeat 1 24 ++ repeat 2 24 ++ repeat 3 24 ++ repeat 4 24 ++ zeros 32)))
    (Some (0, repeat 10 24)) = Some (0, Some sg') /\
  member sp_sig S192f sg' = slh_sign_internal SLH_192f (repeat 3 24) ([1; 3; 1; 2; 3; 6; 9; 96; 134; 72; 1; 101; 3; 4; 2; 9] ++ repeat 6 48) (repeat 1 24) (repeat 2 24) (repeat 4 24) (repeat 10 24).
Proof.
  destruct (C71_sign S192f (mkObj None (repeat 7 49856)) (mkObj (Some S192f) (repeat 1 24 ++ repeat 2 24 ++ repeat 3 24 ++ repeat 4 24 ++ zeros 32))
    (repeat 1 24) (repeat 2 24) (repeat 3 24) (repeat 4 24) case_ctx (repeat 6 48) (Some (0, repeat 10 24)) (repeat 10 24) ([1; 3; 1; 2; 3; 6; 9; 96; 134; 72; 1; 101; 3; 4; 2; 9] ++ repeat 6 48)) as (sg' & E & _ & _ & M).
  - split; [apply case_bytes; lia|apply repeat_length].
  - reflexivity.
  - reflexivity.
  - split; [apply case_bytes; lia|reflexivity].
  - split; [apply case_bytes; lia|reflexivity].
  - split; [apply case_bytes; lia|reflexivity].
  - split; [apply case_bytes; lia|reflexivity].
  - repeat (apply Forall_cons; [unfold byte; lia|]); apply Forall_nil.
  - apply case_bytes; lia.
  - rewrite repeat_length. lia.
  - reflexivity.
  - right. split; [reflexivity|split; [apply case_bytes; lia|reflexivity]].
  - exists sg'. split; [exact E|exact M].
Qed.
(** refused: 256 bytes of context; SHA-256 at category 3; an unknown hash function. Accepted: SHA-256 at category 1 *)
Example C72_case : M' S128s (mkSC None None (repeat 1 256) false) [] = None /\ M' S192s (mkSC None (Some PH_sha256) [] false) (repeat 6 32) = None /\
  M' S128s (mkSC None (Some (PH_other 3)) [] false) [] = None /\ M' S128f (mkSC None (Some PH_sha256) [] false) [7] = Some [1; 0; 6; 9; 96; 134; 72; 1; 101; 3; 4; 2; 1; 7].
Proof. repeat split. Qed.

(** ** C72: what is refused, and what a failure leaves behind *)
Definition rng_fails (rng : option (Z * list Z)) : Prop := exists r o, rng = Some (r, o) /\ r < 0.
Theorem C72_failed_signature : forall t sg sk c m rng, sig_mem sg -> ob_type sk = Some t -> rng_fails rng \/ M' t c m = None ->
  exists r sg', r < 0 /\ api_sign_ctx (Some sg) c m (Some sk) rng = Some (r, Some sg') /\ member sp_sig t sg' = zeros (SlhSpec.sig_bytes (row t)).
Proof.
  intros t sg sk c m rng [Bg Lg] Ht H. destruct (sizes t) as (_ & _ & _ & Z4 & Z5). unfold api_sign_ctx. rewrite Ht.
  destruct (sign_fail (set_of t) (row t) (row_ok t) (member sp_sig t sg) c m (member sp_sk t sk) rng) as (r & Hr & E).
  { destruct H as [H|H]; [left; exact H|right]. pose proof (sep_M t c m) as SM. rewrite H in SM. exact SM. }
  rewrite E. exists r. eexists. split; [exact Hr|]. split; [reflexivity|]. rewrite <- Z4. apply member_put; rewrite length_zeros; lia.
Qed.
Print Assumptions C72_failed_signature.
Theorem C72_refused_verify : forall t sg pk c m ad1 ad2, ob_type sg = Some t -> ob_type pk = Some t -> M' t c m = None ->
  api_verify_ctx ad1 ad2 (Some sg) c m (Some pk) < 0.
Proof.
  intros t sg pk c m ad1 ad2 Tg Tp H. unfold api_verify_ctx. rewrite Tg, Tp. replace (stype_eqb (Some t) (Some t)) with true by (destruct t; reflexivity). cbn [negb].
  pose proof (sep_M t c m) as SM. rewrite H in SM. rewrite (verify_fail _ _ (row_ok t)); auto.
Qed.
Theorem C72_type_mismatch : forall sg pk c m ad1 ad2, ob_type sg <> ob_type pk -> api_verify_ctx ad1 ad2 (Some sg) c m (Some pk) = - EINVAL.
Proof.
  intros sg pk c m ad1 ad2 H. unfold api_verify_ctx. destruct (stype_eqb (ob_type sg) (ob_type pk)) eqn:E; [|reflexivity].
  exfalso. apply H. destruct (ob_type sg) as [[]|], (ob_type pk) as [[]|]; cbn in E; congruence.
Qed.
(** which contexts are accepted *)
Theorem C72_accepted : forall t c m, M' t c m <> None <->
  sc_internal c = true \/
  ((length (sc_userctx c) <= 255)%nat /\
   (sc_prehash c = None \/ exists h x s, sc_prehash c = Some h /\ hash_arc h = Some (x, s) /\ category t <= s)).
Proof.
  intros t c m. unfold M'. destruct (sc_internal c). { split; intros; [auto|congruence]. }
  destruct (Nat.leb_spec (length (sc_userctx c)) 255) as [L|L].
  - split.
    + intros H. right. split; auto. destruct (sc_prehash c) as [h|]; auto. right. destruct (hash_arc h) as [[x s]|] eqn:E; [|congruence].
      destruct (Z.leb_spec (category t) s); [|congruence]. eauto 8.
    + intros [H|[_ [H|(h & x & s & E1 & E2 & E3)]]]; [discriminate|rewrite H; congruence|]. rewrite E1, E2. apply Z.leb_le in E3. rewrite E3. congruence.
  - split. congruence. intros [H|[H _]]; [discriminate|lia].
Qed.
Print Assumptions C72_refused_verify.
Print Assumptions C72_type_mismatch.
Print Assumptions C72_accepted.

(** ** C73: the streaming interface is HashSLH-DSA of the whole message *)
(** the digests of 10.2.2 and of FIPS 202, 180-4; SHAKE128 with 256, SHAKE256 with 512 bits of output *)
Definition hash_value (h : prehash) (m : list Z) : list Z :=
  match h with
  | PH_sha256 => SHA256 m | PH_sha384 => SHA384 m | PH_sha512 => SHA512 m
  | PH_sha3_256 => SHA3 32 m | PH_sha3_384 => SHA3 48 m | PH_sha3_512 => SHA3 64 m
  | PH_shake128 => SHAKE128 m 32 | PH_shake256 => SHAKE256 m 64
  | PH_other _ => []
  end.
(** the hash function used where none is set *)
Definition hash_used (t : stype) (c : spctx) : prehash :=
  match sc_prehash c with
  | Some h => h
  | None => if category t =? 1 then PH_sha3_256 else if category t =? 3 then PH_sha3_384 else PH_sha3_512
  end.
(** the memory of the hash state before initialisation *)
Definition stale_ok (h : prehash) (old : list Z) : Prop :=
  match h with PH_sha256 => length old = 64%nat | PH_sha384 | PH_sha512 => length old = 128%nat | _ => True end.
Definition streamed (c : spctx) (key : obj) (ms : list (list Z)) : spctx := fold_left api_stream_update ms (snd (api_stream_init c (Some key))).
Definition prehashable (t : stype) (h : prehash) : Prop := hash_arc h <> None /\ (h = PH_shake256 -> category t = 5) /\ (h = PH_shake128 -> category t = 1).

Lemma streamed_eq : forall c key t ms, ob_type key = Some t ->
  streamed c key ms = mkSC (Some (hash_used t c, ms)) (Some (hash_used t c)) (sc_userctx c) (sc_internal c).
Proof.
  intros c key t ms Ht. unfold streamed, api_stream_init. rewrite Ht. cbn [snd]. unfold sp_stream_init.
  assert (E : match sc_prehash c with Some p => p | None => default_prehash (set_of t) end = hash_used t c).
  { unfold hash_used, default_prehash. destruct (sc_prehash c); auto. destruct t; reflexivity. }
  rewrite E. set (h := hash_used t c). clearbody h.
  cut (forall ms0, fold_left api_stream_update ms (mkSC (Some (h, ms0)) (Some h) (sc_userctx c) (sc_internal c)) = mkSC (Some (h, ms0 ++ ms)) (Some h) (sc_userctx c) (sc_internal c)).
  { intros X. apply (X []). }
  induction ms as [|m ms IH]; intros ms0; cbn [fold_left]. rewrite app_nil_r. reflexivity.
  unfold api_stream_update at 2. unfold sp_stream_update. cbn [sc_hash sc_prehash sc_userctx sc_internal]. rewrite IH. rewrite <- app_assoc. reflexivity.
Qed.
Lemma digest_ok : forall t h other old ms, prehashable t h -> stale_ok h old -> Forall bytes ms -> Z.of_nat (length (concat ms)) < 2 ^ 61 ->
  ph_digest (set_of t) other old h ms = hash_value h (concat ms).
Proof.
  intros t h other old ms (A & B & C) S F L. assert (L4 : Z.of_nat (length (concat ms)) < 2 ^ 64) by lia.
  destruct h; cbn [ph_digest hash_value stale_ok] in *.
  - apply C04_sha256_streaming; auto.
  - apply C05_sha384_streaming; auto.
  - apply C05_sha512_streaming; auto.
  - apply C01_sha3_streaming; auto. cbn. tauto.
  - apply C01_sha3_streaming; auto. cbn. tauto.
  - apply C01_sha3_streaming; auto. cbn. tauto.
  - replace (shake_size (set_of t)) with 32%nat. apply C01_xof_streaming; auto. specialize (C eq_refl). destruct t; cbn in C; try discriminate C; reflexivity.
  - replace (shake_size (set_of t)) with 64%nat. apply C01_xof_streaming; auto. specialize (B eq_refl). destruct t; cbn in B; try discriminate B; reflexivity.
  - cbn in A. congruence.
Qed.
Lemma sha2_len : forall P K IV n m, (length (sha2 P K IV n m) <= n * sp_wb P)%nat.
Proof.
  intros P K IV n m. unfold sha2. set (l := sha2_H P K IV m). clearbody l. revert l. induction n; intros l; cbn [firstn]. cbn. lia.
  destruct l as [|x l]; cbn [firstn flat_map]. cbn. lia. rewrite app_length, length_be_bytes. specialize (IHn l). lia.
Qed.
Lemma hash_value_len : forall h m, (length (hash_value h m) <= 64)%nat.
Proof.
  intros h m. destruct h; cbn [hash_value].
  - pose proof (sha2_len p256 (K_of p256) IV256 8 m) as L. change (8 * sp_wb p256)%nat with 32%nat in L. unfold SHA256. lia.
  - pose proof (sha2_len p512 (K_of p512) IV384 6 m) as L. change (6 * sp_wb p512)%nat with 48%nat in L. unfold SHA384. lia.
  - pose proof (sha2_len p512 (K_of p512) IV512 8 m) as L. change (8 * sp_wb p512)%nat with 64%nat in L. unfold SHA512. lia.
  - rewrite SHA3_len. lia.
  - rewrite SHA3_len. lia.
  - rewrite SHA3_len. lia.
  - rewrite SHAKE128_len. lia.
  - rewrite SHAKE256_len. lia.
  - cbn. lia.
Qed.
Lemma sha2_bytes : forall P K IV n m, bytes (sha2 P K IV n m).
Proof.
  intros P K IV n m. unfold sha2. set (l := firstn n _). clearbody l. induction l; cbn [flat_map]. constructor. apply bytes_app; auto. apply bytes_be_bytes.
Qed.
Lemma hash_value_bytes : forall h m, bytes m -> bytes (hash_value h m).
Proof.
  intros h m B. destruct h; cbn [hash_value]; try apply sha2_bytes; try (apply SHA3_bytes; auto; lia).
  - apply SHAKE128_bytes; auto.
  - apply SHAKE256_bytes; auto.
  - constructor.
Qed.
Global Opaque hash_value.

Section Stream.
  Variable other : nat -> list (list Z) -> list Z.
  Variable old : list Z.
  Variables ad1 ad2 : Z.
  Theorem C73_stream_sign_partial : forall t sg sk c ms rng, ob_type sk = Some t -> prehashable t (hash_used t c) -> stale_ok (hash_used t c) old ->
    Forall bytes ms -> Z.of_nat (length (concat ms)) < 2 ^ 61 ->
    option_map fst (api_sign_final other old (Some sg) (streamed c sk ms) (Some sk) rng) =
    api_sign_ctx (Some sg) (ctx_hash c (Some (hash_used t c))) (hash_value (hash_used t c) (concat ms)) (Some sk) rng.
  Proof.
    intros t sg sk c ms rng Ht Hp Hs F L. rewrite (streamed_eq c sk t ms Ht). unfold api_sign_final, api_sign_ctx. rewrite Ht. unfold sp_sign_final. cbn [sc_hash].
    rewrite (digest_ok t _ other old ms Hp Hs F L). pose proof (hash_value_len (hash_used t c) (concat ms)) as LH.
    destruct (Nat.ltb_spec 64 (length (hash_value (hash_used t c) (concat ms)))); [lia|]. unfold ctx_hash.
    set (h := hash_used t c) in *. set (dg := hash_value h (concat ms)). clearbody h dg.
    change (sp_sign_ctx (set_of t) (member sp_sig t sg) (mkSC (Some (h, ms)) (Some h) (sc_userctx c) (sc_internal c)) dg (member sp_sk t sk) rng) with
      (sp_sign_ctx (set_of t) (member sp_sig t sg) (mkSC (sc_hash c) (Some h) (sc_userctx c) (sc_internal c)) dg (member sp_sk t sk) rng).
    destruct (sp_sign_ctx _ _ _ _ _ _) as [[r g]|]; reflexivity.
  Qed.
  Theorem C73_stream_verify_partial : forall t sg pk c ms, ob_type pk = Some t -> prehashable t (hash_used t c) -> stale_ok (hash_used t c) old ->
    Forall bytes ms -> Z.of_nat (length (concat ms)) < 2 ^ 61 ->
    option_map fst (api_verify_final other old ad1 ad2 (Some sg) (streamed c pk ms) (Some pk)) =
    Some (api_verify_ctx ad1 ad2 (Some sg) (ctx_hash c (Some (hash_used t c))) (hash_value (hash_used t c) (concat ms)) (Some pk)).
  Proof.
    intros t sg pk c ms Ht Hp Hs F L. rewrite (streamed_eq c pk t ms Ht). unfold api_verify_final, api_verify_ctx. rewrite Ht.
    destruct (negb _); [reflexivity|]. unfold sp_verify_final. cbn [sc_hash].
    rewrite (digest_ok t _ other old ms Hp Hs F L). pose proof (hash_value_len (hash_used t c) (concat ms)) as LH.
    destruct (Nat.ltb_spec 64 (length (hash_value (hash_used t c) (concat ms)))); [lia|]. unfold ctx_hash. reflexivity.
  Qed.
  (** a signature streamed over one splitting verifies over any other *)
  Theorem C73_stream_round_trip_partial : forall t pk sk seeds sg c ms ms' rng rnd, pk_mem pk -> sk_mem sk -> sig_mem sg ->
    bytes seeds -> length seeds = (3 * f_n (row t))%nat -> bytes (sc_userctx c) ->
    prehashable t (hash_used t c) -> stale_ok (hash_used t c) old -> Forall bytes ms -> Forall bytes ms' -> concat ms = concat ms' ->
    Z.of_nat (length (concat ms)) < 2 ^ 61 ->
    M' t (ctx_hash c (Some (hash_used t c))) (hash_value (hash_used t c) (concat ms)) <> None ->
    randomizer t rng (skipn (2 * f_n (row t)) seeds) rnd ->
    exists pk' sk' sg',
      api_keypair (Some pk) (Some sk) (Some (0, seeds)) (Some t) = Some (0, Some pk', Some sk') /\
      option_map fst (api_sign_final other old (Some sg) (streamed c sk' ms) (Some sk') rng) = Some (0, Some sg') /\
      option_map fst (api_verify_final other old ad1 ad2 (Some sg') (streamed c pk' ms') (Some pk')) = Some 0.
  Proof.
    intros t pk sk seeds sg c ms ms' rng rnd Mp Ms Mg Bs Ls Bu Hp Hst F F' EC L HM HR.
    assert (BH : bytes (hash_value (hash_used t c) (concat ms))) by (apply hash_value_bytes; apply Forall_concat; auto).
    assert (LD : Z.of_nat (length (hash_value (hash_used t c) (concat ms))) < 2 ^ 64 - 1000) by (pose proof (hash_value_len (hash_used t c) (concat ms)); lia).
    destruct (C70_sign_verify t pk sk seeds sg (ctx_hash c (Some (hash_used t c))) (hash_value (hash_used t c) (concat ms)) rng rnd ad1 ad2 Mp Ms Mg Bs Ls Bu BH LD HM HR) as (pk' & sk' & sg' & E1 & E2 & E3).
    assert (T : ob_type pk' = Some t /\ ob_type sk' = Some t).
    { unfold api_keypair in E1. destruct (sp_keypair _ _ _ _) as [[[r p'] s']|]; [|discriminate]. injection E1 as _ <- <-. split; reflexivity. }
    exists pk', sk', sg'. split; [exact E1|]. destruct T as [T1 T2]. split.
    - rewrite (C73_stream_sign_partial t); auto.
    - rewrite (C73_stream_verify_partial t); auto; rewrite <- EC; auto. rewrite E3. reflexivity.
  Qed.
End Stream.
Print Assumptions C73_stream_sign_partial.
Print Assumptions C73_stream_verify_partial.
Print Assumptions C73_stream_round_trip_partial.
