(** Key generation, signing and verification of ml-dsa/src: the sampled values are in range and do not depend on the
    fuel, keys and signatures decode to what was encoded, and what sign returns verify accepts. *)
From Verif Require Import Bytes Words ZUtil Fips202 KeccakModel Sha3Model KeccakBytes Sha3Top DrbgProof KmacModel UtilModel UtilProof PolyRing NttSim KyberModel KyberSpec KyberNttModel KyberCodec2 KyberSample KyberVec
  DilithiumModel DilithiumSpec DilithiumArith DilithiumNtt DilithiumNttModel DilithiumCodec DilithiumHint DilithiumSample DilithiumRing.
Require Import Lia.
Import ListNotations.

(** ** ranges *)
Lemma three_bytes_pos : forall n B, (length B <= n)%nat -> bytes B -> Forall (fun x => 0 <= x) (three_bytes B).
Proof.
  induction n; intros B L H. destruct B; [constructor|cbn in L; lia]. destruct B as [|a [|b [|c B]]]; try constructor.
  - apply Forall_cons_iff in H. destruct H as [Ha H]. apply Forall_cons_iff in H. destruct H as [Hb H]. unfold byte in *.
    pose proof (Z.mod_pos_bound c 128 ltac:(lia)). lia.
  - apply IHn. cbn in L; lia. repeat apply Forall_inv_tail in H. exact H.
Qed.
Lemma accept3_range : forall B, bytes B -> Forall (fun x => 0 <= x < dq) (accept3 B).
Proof.
  intros B H. unfold accept3. apply Forall_forall. intros x Hx. apply filter_In in Hx. destruct Hx as [I L]. apply Z.ltb_lt in L.
  pose proof (three_bytes_pos (length B) B (le_n _) H) as F. rewrite Forall_forall in F. split; [apply F; exact I|exact L].
Qed.
Lemma accept_eta_range : forall eta B, In eta [2; 4] -> bytes B -> Forall (fun x => - eta <= x <= eta) (accept_eta eta B).
Proof.
  intros eta B He. unfold accept_eta, halves. induction B as [|b B IH]; intro H. constructor. cbn [flat_map app map].
  pose proof (Forall_inv H) as Hb. apply Forall_inv_tail in H. specialize (IH H). unfold byte in Hb.
  assert (X : forall t l, 0 <= t -> Forall (fun x => - eta <= x <= eta) (somes l) -> Forall (fun x => - eta <= x <= eta) (somes (CoeffFromHalfByte eta t :: l))).
  { intros t l Ht Hl. cbn [somes]. unfold CoeffFromHalfByte. destruct He as [<-|[<-|[]]].
    - change (2 =? 2) with true. change (2 =? 4) with false. cbn [andb]. destruct (Z.ltb_spec t 15); auto. constructor; auto. pose proof (Z.mod_pos_bound t 5 ltac:(lia)). lia.
    - change (4 =? 2) with false. change (4 =? 4) with true. cbn [andb]. destruct (Z.ltb_spec t 9); auto. constructor; auto. lia. }
  apply X. apply Z.mod_pos_bound; lia. apply X. apply Z.div_pos; lia. exact IH.
Qed.
Lemma put_len : forall c i x, length (put c i x) = length c.
Proof. induction c; intros [|i] x; cbn; auto. Qed.
Lemma put_within : forall c i x, - 1 <= x <= 1 -> within 1 c -> within 1 (put c i x).
Proof.
  induction c; intros i x Hx H; [destruct i; exact H|]. destruct i; cbn [put]; constructor; try exact Hx; try apply (Forall_inv H); try apply (Forall_inv_tail H).
  apply IHc; auto. apply (Forall_inv_tail H).
Qed.
Lemma nth_within : forall c i B, 0 <= B -> within B c -> - B <= nth i c 0 <= B.
Proof.
  intros c i B HB H. destruct (Nat.lt_ge_cases i (length c)). unfold within in H. rewrite Forall_forall in H. apply H, nth_In; auto. rewrite nth_overflow by auto. lia.
Qed.
Lemma ball_within : forall sign tau B i c r, polyw 1 c -> ball sign tau i B c = Some r -> polyw 1 r.
Proof.
  intros sign tau. induction B as [|b B IH]; intros i c r [L W] H; cbn [ball] in H; destruct (i =? 256)%nat; try discriminate; try (injection H as <-; split; auto).
  destruct (Z.of_nat i <? b). apply (IH i c r); auto. split; auto. apply (IH _ _ _) in H; auto. split. rewrite !put_len; auto.
  apply put_within. destruct (sign _); lia. apply put_within; auto. exact (nth_within c _ 1 ltac:(lia) W).
Qed.
Lemma zeros_within : forall B, 0 <= B -> polyw B (zeros 256).
Proof. intros B HB. split. apply length_zeros. apply Forall_forall. intros x Hx. unfold zeros in Hx. apply repeat_spec in Hx. subst. lia. Qed.
Lemma SampleInBall_within : forall tau seed c, SampleInBall tau seed c -> polyw 1 c.
Proof. intros tau seed c [n H]. apply ball_within in H; auto. apply zeros_within. lia. Qed.
Lemma RK_st_bytes : forall k st, RK k st -> forall n, bytes (take n st).
Proof. intros k st H n. apply bytes_take, (RK_bytes k st H). Qed.
Lemma skipping_bytes : forall i n u st, (forall p, byte (st p)) -> forall p, byte (skipping i n u st p).
Proof. intros. unfold skipping. destruct (_ <? _)%nat; auto. Qed.

Lemma firstn_Forall : forall (Q : Z -> Prop) n l, Forall Q l -> Forall Q (firstn n l).
Proof. intros Q n. induction n; intros [|x l] H; cbn; constructor. apply (Forall_inv H). apply IHn, (Forall_inv_tail H). Qed.

(** ** the samplers: range, independence of the fuel *)
Definition stable {A : Type} (f : nat -> option A) (a : A) : Prop :=
  (forall n a', f n = Some a' -> a' = a) /\ exists f0, forall n, (f0 <= n)%nat -> f n = Some a.
Lemma stable_of : forall {A : Type} (f : nat -> option A) (Q : A -> Prop) n a,
  (forall a, (forall n, f n = Some a -> Q a) /\ (Q a -> exists f0, forall n, (f0 <= n)%nat -> f n = Some a)) -> f n = Some a -> stable f a.
Proof.
  intros A f Q n a H E. destruct (H a) as [H1 H2]. destruct (H2 (H1 n E)) as [f0 F]. split; [|exists f0; exact F].
  intros n' a' E'. destruct (H a') as [H1' H2']. destruct (H2' (H1' n' E')) as [f1 F']. pose proof (F (Nat.max f0 f1) ltac:(lia)). pose proof (F' (Nat.max f0 f1) ltac:(lia)). congruence.
Qed.
Lemma stable_traverse : forall {A : Type} (d : A) (f : nat -> nat -> option A) n r,
  length r = n -> (forall i, (i < n)%nat -> stable (f i) (nth i r d)) -> stable (fun fuel => traverse (map (fun i => f i fuel) (seq 0 n))) r.
Proof.
  intros A d f n r L H. split.
  - intros fuel r' E. apply (traverse_seq A (fun i => f i fuel) d) in E. destruct E as [L' E]. apply (nth_ext _ _ d d). congruence.
    intros i Hi. rewrite L' in Hi. apply (proj1 (H i Hi) fuel). apply E. exact Hi.
  - assert (B : forall m, (m <= n)%nat -> exists f0, forall fuel, (f0 <= fuel)%nat -> forall i, (i < m)%nat -> f i fuel = Some (nth i r d)).
    { induction m; intro Hm. exists 0%nat. intros; lia. destruct (IHm ltac:(lia)) as [f0 F]. destruct (H m ltac:(lia)) as [_ [f1 F1]].
      exists (Nat.max f0 f1). intros fuel Hf i Hi. destruct (Nat.eq_dec i m). subst. apply F1; lia. apply F; lia. }
    destruct (B n (le_n _)) as [f0 F]. exists f0. intros fuel Hf. apply (traverse_seq A (fun i => f i fuel) d). split; [exact L|]. intros i Hi. apply F; auto.
Qed.
Lemma uniform_sampled : forall fuel rho nonce a, bytes rho -> (length rho <= 64)%nat -> 0 <= nonce < 65536 -> d_poly_uniform fuel rho nonce = Some a ->
  polyw 8380416 a /\ stable (fun fuel => d_poly_uniform fuel rho nonce) a.
Proof.
  intros fuel rho nonce a B L N E. pose proof (poly_uniform_skips rho nonce B L N) as S. split.
  - apply (proj1 (S a)) in E. destruct E as [La [n E]]. split; auto. rewrite <- E. apply firstn_Forall.
    eapply Forall_impl; [|apply accept3_range]. cbv beta. unfold dq. intros; lia.
    apply bytes_take, skipping_bytes. apply (RK_bytes _ _ (R128 rho nonce B L N)).
  - exact (stable_of (fun fuel => d_poly_uniform fuel rho nonce) _ fuel a S E).
Qed.
Lemma eta_sampled : forall fuel eta rho nonce a, In eta [2; 4] -> bytes rho -> (length rho <= 64)%nat -> 0 <= nonce < 65536 -> d_poly_uniform_eta fuel eta rho nonce = Some a ->
  polyw eta a /\ stable (fun fuel => d_poly_uniform_eta fuel eta rho nonce) a.
Proof.
  intros fuel eta rho nonce a He B L N E. pose proof (fun a => poly_eta_skips rho nonce B L N eta a He) as S. split.
  - apply (proj1 (S a)) in E. destruct E as [La [n E]]. split; auto. rewrite <- E. apply firstn_Forall.
    apply accept_eta_range; auto. apply bytes_take, skipping_bytes. apply (RK_bytes _ _ (R256 rho nonce B L N)).
  - exact (stable_of (fun fuel => d_poly_uniform_eta fuel eta rho nonce) _ fuel a S E).
Qed.
Lemma dset_small : forall P, dset_in P -> (0 < d_k P <= 8)%nat /\ (0 < d_l P <= 7)%nat /\ In (d_eta P) [2; 4] /\ (d_tau P <= 64)%nat /\ (d_ct P <= 64)%nat /\ eta_bytes P = (32 * eta_bits (d_eta P))%nat.
Proof. intros P [<-|[<-|[<-|[]]]]; cbn; repeat split; auto; lia. Qed.
Lemma challenge_sampled : forall fuel P seed c, dset_in P -> bytes seed -> (length seed <= 64)%nat -> d_poly_challenge fuel P seed = Some c ->
  polyw 1 c /\ stable (fun fuel => d_poly_challenge fuel P seed) c.
Proof.
  intros fuel P seed c HP B L E. destruct (dset_small P HP) as (_ & _ & _ & Ht & _). pose proof (fun c => challenge_ok P seed c B L Ht) as S. split.
  - apply (proj1 (S c)) in E. apply SampleInBall_within in E. exact E.
  - exact (stable_of (fun fuel => d_poly_challenge fuel P seed) _ fuel c S E).
Qed.
Lemma u16_small : forall x, 0 <= x < 65536 -> u16 x = x.
Proof. intros. unfold u16. apply Z.mod_small. lia. Qed.
Lemma matrix_sampled : forall fuel P rho A, dset_in P -> bytes rho -> (length rho <= 64)%nat -> d_matrix_expand fuel P rho = Some A ->
  length A = d_k P /\ rows (d_l P) A /\ stable (fun fuel => d_matrix_expand fuel P rho) A.
Proof.
  intros fuel P rho A HP B L E. destruct (dset_small P HP) as (Hk & Hl & _).
  set (entry := fun i fuel j => d_poly_uniform fuel rho (u16 (Z.of_nat i * 256 + Z.of_nat j))).
  assert (NN : forall i j, (i < d_k P)%nat -> (j < d_l P)%nat -> 0 <= u16 (Z.of_nat i * 256 + Z.of_nat j) < 65536).
  { intros. rewrite u16_small by lia. lia. }
  unfold d_matrix_expand in E. pose proof E as E0. apply (traverse_seq _ (fun i => traverse (map (entry i fuel) (seq 0 (d_l P)))) []) in E. destruct E as [LA EA]. cbn [Nat.add] in EA.
  assert (RW : forall i, (i < d_k P)%nat -> length (nth i A []) = d_l P /\ (forall j, (j < d_l P)%nat -> polyw 8380416 (nth j (nth i A []) []) /\ stable (fun fuel => entry i fuel j) (nth j (nth i A []) []))).
  { intros i Hi. pose proof (EA i Hi) as Ei. apply (traverse_seq _ (entry i fuel) []) in Ei. destruct Ei as [Li Ei]. cbn [Nat.add] in Ei. split; auto.
    intros j Hj. apply (uniform_sampled fuel); auto. apply Ei; auto. }
  split; [exact LA|split].
  - apply Forall_forall. intros row Hr. destruct (In_nth A row [] Hr) as (i & Hi & <-). rewrite LA in Hi. destruct (RW i Hi) as [L1 H1]. split; auto.
    apply Forall_forall. intros p Hp. destruct (In_nth _ p [] Hp) as (j & Hj & <-). rewrite L1 in Hj. apply H1; auto.
  - unfold d_matrix_expand. apply (stable_traverse [] (fun i fuel => traverse (map (entry i fuel) (seq 0 (d_l P))))); auto.
    intros i Hi. destruct (RW i Hi) as [L1 H1]. apply (stable_traverse [] (fun j fuel => entry i fuel j)); auto. intros j Hj. apply H1; auto.
Qed.
Lemma vec_eta_sampled : forall fuel P n rho nonce s, dset_in P -> bytes rho -> (length rho <= 64)%nat -> (nonce + n <= 256)%nat -> d_vec_eta fuel P n rho nonce = Some s ->
  length s = n /\ Forall (polyw (d_eta P)) s.
Proof.
  intros fuel P n rho nonce s HP B L Hn E. destruct (dset_small P HP) as (_ & _ & He & _). unfold d_vec_eta in E.
  apply (traverse_seq _ (fun i => d_poly_uniform_eta fuel (d_eta P) rho (u16 (Z.of_nat (nonce + i)))) []) in E. destruct E as [Ls E]. split; auto.
  apply Forall_forall. intros p Hp. destruct (In_nth _ p [] Hp) as (j & Hj & <-). rewrite Ls in Hj. apply (eta_sampled fuel (d_eta P) rho (u16 (Z.of_nat (nonce + j)))); auto.
  rewrite u16_small by lia. lia. apply E; auto.
Qed.
Lemma gamma1_ok : forall P rho nonce, dset_in P -> bytes rho -> (length rho <= 64)%nat -> 0 <= nonce < 65536 ->
  d_poly_uniform_gamma1 P rho nonce = BitUnpack (z_bits (d_g1 P)) (d_g1 P) (SHAKE256 (rho ++ IntegerToBytes2 nonce) (32 * z_bits (d_g1 P))).
Proof.
  intros P rho nonce HP B L N. destruct (dset_g1 P HP) as (G & Zb & _ & _).
  assert (E : firstn (z_bytes P) (fst (xof_read permB (keccak_updates permB (keccak_init alg_shake256) [rho; le16 nonce]) 680)) = SHAKE256 (rho ++ IntegerToBytes2 nonce) (32 * z_bits (d_g1 P))).
  { pose proof (R256 rho nonce B L N) as R. destruct (RK_rd _ _ 680 R) as [E _]. rewrite E. rewrite firstn_take, take_sh256, Zb. reflexivity.
    destruct HP as [<-|[<-|[<-|[]]]]; vm_compute; lia. }
  unfold d_poly_uniform_gamma1. rewrite E. assert (BB : bytes (rho ++ IntegerToBytes2 nonce)).
  { apply Forall_app. split; auto. rewrite <- le16_spec by auto. apply le16_bytes. }
  apply z_unpack_ok; auto. apply SHAKE256_len. apply SHAKE256_bytes; auto.
Qed.
Lemma gamma1_range : forall P rho nonce, dset_in P -> bytes rho -> (length rho <= 64)%nat ->
  length (d_vec_gamma1 P rho nonce) = d_l P /\ Forall (polyw (d_g1 P)) (d_vec_gamma1 P rho nonce).
Proof.
  intros P rho nonce HP B L. unfold d_vec_gamma1. rewrite map_length, seq_length. split; auto. apply Forall_forall. intros p Hp. apply in_map_iff in Hp.
  destruct Hp as (i & <- & Hi). rewrite gamma1_ok; auto. 2: unfold u16; apply Z.mod_pos_bound; lia.
  destruct (BitUnpack_range (z_bits (d_g1 P)) (d_g1 P) (SHAKE256 (rho ++ IntegerToBytes2 (u16 (Z.of_nat (d_l P) * nonce + Z.of_nat i))) (32 * z_bits (d_g1 P)))) as [R Lx]. split; auto.
  destruct (dset_g1 P HP) as (G & Zb & Z0 & Z2). rewrite Z2 in R. eapply Forall_impl; [|exact R]. cbv beta. intros; lia.
Qed.

(** ** keys *)
Lemma unpack_flat : forall (pk up : list Z -> list Z) n l r, Forall (fun x => length (pk x) = n /\ up (pk x) = x) l ->
  map up (cut (length l) n (flat_map pk l ++ r)) = l.
Proof.
  intros pk up n l r H. rewrite cut_flat by (eapply Forall_impl; [|exact H]; cbv beta; tauto). rewrite map_map. rewrite <- (map_id l) at 2.
  apply map_ext_in. intros x Hx. rewrite Forall_forall in H. apply H, Hx.
Qed.
Lemma eta_pack_fact : forall eta p, In eta [2; 4] -> polyw eta p -> length (d_polyeta_pack eta p) = (32 * eta_bits eta)%nat /\ d_polyeta_unpack eta (d_polyeta_pack eta p) = p /\ bytes (d_polyeta_pack eta p).
Proof.
  intros eta p He [L W]. rewrite eta_pack_ok by auto. split. apply length_BitPack. split; [|apply bytes_BitPack]. rewrite eta_unpack_ok by (auto; apply length_BitPack || apply bytes_BitPack).
  apply (BitUnpack_Pack _ eta (- eta)); auto; destruct He as [<-|[<-|[]]]; vm_compute; auto.
Qed.
Lemma t0_pack_fact : forall p, length p = 256%nat -> inr (-4095) 4096 p -> length (d_polyt0_pack p) = 416%nat /\ d_polyt0_unpack (d_polyt0_pack p) = p /\ bytes (d_polyt0_pack p).
Proof.
  intros p L W. rewrite t0_pack_ok by auto. split. apply length_BitPack. split; [|apply bytes_BitPack]. rewrite t0_unpack_ok by (auto; apply length_BitPack || apply bytes_BitPack).
  apply (BitUnpack_Pack 13 (2 ^ 12) (-4095)); auto; lia.
Qed.
Lemma t1_pack_fact : forall p, length p = 256%nat -> inr 0 1023 p -> length (d_polyt1_pack p) = 320%nat /\ d_polyt1_unpack (d_polyt1_pack p) = p /\ bytes (d_polyt1_pack p).
Proof.
  intros p L W. rewrite t1_pack_ok by auto. split. apply length_ByteEncode. split; [|apply bytes_ByteEncode]. rewrite t1_unpack_ok by (auto; apply length_ByteEncode || apply bytes_ByteEncode).
  apply ByteDecode_Encode; auto. lia. eapply Forall_impl; [|exact W]. cbv beta. change (2 ^ Z.of_nat 10) with 1024. intros; lia.
Qed.
Lemma bytes_flat : forall (f : list Z -> list Z) l, Forall (fun x => bytes (f x)) l -> bytes (flat_map f l).
Proof. intros f l H. induction H; cbn. constructor. apply Forall_app. split; auto. Qed.

Section Keys.
  Variable P : dparam. Hypothesis HP : dset_in P.
  Variables (rho key tr : list Z) (s1 s2 t0 t1 : list (list Z)).
  Hypothesis Lrho : length rho = 32%nat. Hypothesis Lkey : length key = 32%nat. Hypothesis Ltr : length tr = 64%nat.
  Hypothesis L1 : length s1 = d_l P. Hypothesis L2 : length s2 = d_k P. Hypothesis L0 : length t0 = d_k P. Hypothesis Lt1 : length t1 = d_k P.
  Hypothesis W1 : Forall (polyw (d_eta P)) s1. Hypothesis W2 : Forall (polyw (d_eta P)) s2.
  Hypothesis W0 : Forall (fun p => length p = 256%nat /\ inr (-4095) 4096 p) t0.
  Hypothesis Wt1 : Forall (fun p => length p = 256%nat /\ inr 0 1023 p) t1.
  Let sk := d_pack_sk P rho key tr s1 s2 t0.
  Let S1 := flat_map (d_polyeta_pack (d_eta P)) s1.
  Let S2 := flat_map (d_polyeta_pack (d_eta P)) s2.
  Let T0 := flat_map d_polyt0_pack t0.
  Lemma eta_in : In (d_eta P) [2; 4]. Proof. apply (dset_small P HP). Qed.
  Lemma eta_facts : forall s, Forall (polyw (d_eta P)) s -> Forall (fun x => length (d_polyeta_pack (d_eta P) x) = eta_bytes P /\ d_polyeta_unpack (d_eta P) (d_polyeta_pack (d_eta P) x) = x) s.
  Proof. clear Lrho Lkey Ltr L1 L2 L0 Lt1 W1 W2 W0 Wt1. intros s H. destruct (dset_small P HP) as (_ & _ & He & _ & _ & ->). eapply Forall_impl; [|exact H]. cbv beta. intros p Hp. destruct (eta_pack_fact _ p He Hp) as (A & B & _). auto. Qed.
  Lemma len_S : forall s n, length s = n -> Forall (polyw (d_eta P)) s -> length (flat_map (d_polyeta_pack (d_eta P)) s) = (n * eta_bytes P)%nat.
  Proof. clear Lrho Lkey Ltr L1 L2 L0 Lt1 W1 W2 W0 Wt1. intros s n <- H. apply length_flat. eapply Forall_impl; [|apply eta_facts, H]. cbv beta; tauto. Qed.
  Lemma sk_eq : sk = rho ++ key ++ tr ++ S1 ++ S2 ++ T0. Proof. reflexivity. Qed.
  Lemma sk_rho_ok : firstn 32 sk = rho. Proof. clear HP Lkey Ltr L1 L2 L0 Lt1 W1 W2 W0 Wt1. rewrite sk_eq. rewrite <- Lrho. apply firstn_length_app. Qed.
  Lemma sk_key_ok : d_sk_key sk = key.
  Proof. clear HP Ltr L1 L2 L0 Lt1 W1 W2 W0 Wt1. rewrite sk_eq. unfold d_sk_key, slice. assert (E : skipn 32 (rho ++ key ++ tr ++ S1 ++ S2 ++ T0) = key ++ tr ++ S1 ++ S2 ++ T0) by (rewrite <- Lrho; apply skipn_length_app). rewrite E. rewrite <- Lkey. apply firstn_length_app. Qed.
  Lemma sk_tr_ok : d_sk_tr sk = tr.
  Proof. clear HP L1 L2 L0 Lt1 W1 W2 W0 Wt1. rewrite sk_eq. unfold d_sk_tr, slice. assert (E : skipn 64 (rho ++ key ++ tr ++ S1 ++ S2 ++ T0) = tr ++ S1 ++ S2 ++ T0) by (rewrite app_assoc; replace 64%nat with (length (rho ++ key)) by (rewrite app_length; lia); apply skipn_length_app). rewrite E. rewrite <- Ltr. apply firstn_length_app. Qed.
  Lemma sk_128 : skipn 128 sk = S1 ++ S2 ++ T0.
  Proof. clear HP L1 L2 L0 Lt1 W1 W2 W0 Wt1. rewrite sk_eq. replace (rho ++ key ++ tr ++ S1 ++ S2 ++ T0) with ((rho ++ key ++ tr) ++ S1 ++ S2 ++ T0) by (rewrite <- !app_assoc; reflexivity).
    replace 128%nat with (length (rho ++ key ++ tr)) by (rewrite !app_length; lia). apply skipn_length_app. Qed.
  Lemma sk_s1_ok : d_sk_s1 P sk = s1.
  Proof. clear L2 L0 Lt1 W2 W0 Wt1. unfold d_sk_s1. rewrite sk_128, <- L1. apply unpack_flat. apply eta_facts, W1. Qed.
  Lemma sk_s2_ok : d_sk_s2 P sk = s2.
  Proof. clear L0 Lt1 W0 Wt1.
    unfold d_sk_s2. rewrite <- skipn_skipn', sk_128. replace (d_l P * eta_bytes P)%nat with (length S1) by (apply len_S; auto). rewrite skipn_length_app, <- L2.
    apply unpack_flat. apply eta_facts, W2.
  Qed.
  Lemma sk_t0_ok : d_sk_t0 P sk = t0.
  Proof. clear Lt1 Wt1.
    unfold d_sk_t0. rewrite <- Nat.add_assoc, <- skipn_skipn', sk_128.
    replace (d_l P * eta_bytes P + d_k P * eta_bytes P)%nat with (length (S1 ++ S2)) by (rewrite app_length; unfold S1, S2; rewrite (len_S s1 (d_l P)), (len_S s2 (d_k P)) by auto; reflexivity).
    rewrite app_assoc, skipn_length_app, <- L0. rewrite <- (app_nil_r T0). apply unpack_flat. eapply Forall_impl; [|exact W0]. cbv beta. intros p [A B]. destruct (t0_pack_fact p A B) as (C & D & _). auto.
  Qed.
  Lemma pk_rho_ok : firstn 32 (d_pack_pk rho t1) = rho. Proof. unfold d_pack_pk. rewrite <- Lrho. apply firstn_length_app. Qed.
  Lemma pk_t1_ok : d_unpack_pk_t1 P (d_pack_pk rho t1) = t1.
  Proof. clear HP Lkey Ltr L1 L2 L0 W1 W2 W0.
    unfold d_unpack_pk_t1, d_pack_pk. assert (E : skipn 32 (rho ++ flat_map d_polyt1_pack t1) = flat_map d_polyt1_pack t1) by (rewrite <- Lrho; apply skipn_length_app). rewrite E, <- Lt1.
    rewrite <- (app_nil_r (flat_map d_polyt1_pack t1)). apply unpack_flat.
    eapply Forall_impl; [|exact Wt1]. cbv beta. intros p [A B]. destruct (t1_pack_fact p A B) as (C & D & _). auto.
  Qed.
  Lemma pk_bytes : bytes rho -> bytes (d_pack_pk rho t1) /\ length (d_pack_pk rho t1) = (32 + 320 * d_k P)%nat.
  Proof. clear HP Lkey Ltr L1 L2 L0 W1 W2 W0.
    intro B. unfold d_pack_pk. split.
    - apply Forall_app. split; auto. apply bytes_flat. eapply Forall_impl; [|exact Wt1]. cbv beta. intros p [A C]. apply t1_pack_fact; auto.
    - rewrite app_length, (length_flat _ 320). lia. eapply Forall_impl; [|exact Wt1]. cbv beta. intros p [A C]. apply t1_pack_fact; auto.
  Qed.
End Keys.

Lemma nth_dvec2 : forall op a b i, (i < length a)%nat -> (i < length b)%nat -> nth i (dvec2 op a b) [] = op (nth i a []) (nth i b []).
Proof. intros op. induction a; intros [|y b] [|i] H1 H2; cbn in *; try lia; auto. apply IHa; lia. Qed.
Lemma length_dvec2 : forall op a b, length (dvec2 op a b) = Nat.min (length a) (length b).
Proof. intros op. induction a; intros [|y b]; cbn; auto. Qed.
Lemma slice_bytes : forall a n m, bytes a -> bytes (slice a n m).
Proof. intros. apply bytes_slice. auto. Qed.
Lemma shake_facts : forall ms n, Forall bytes ms -> Z.of_nat (length (concat ms)) < 2 ^ 64 -> bytes (shake256_of ms n) /\ length (shake256_of ms n) = n.
Proof. intros ms n B L. rewrite shake256_of_ok by auto. split. apply SHAKE256_bytes, bytes_concat; auto. apply SHAKE256_len. Qed.

Theorem keypair_ok : forall fuel P seed pk sk, dset_in P -> bytes seed -> length seed = 32%nat -> d_keypair fuel P seed = Some (pk, sk) ->
  let sb := shake256_of [seed; [Z.of_nat (d_k P); Z.of_nat (d_l P)]] 128 in
  let rho := slice sb 0 32 in let key := slice sb 96 32 in
  exists A s1 s2,
    let t := dvec2 dRadd (map dNTTinv (dmatvec A (map dNTT s1))) s2 in
    let t1 := v_p2r_high t in let t0 := v_p2r_low t in
    d_matrix_expand fuel P rho = Some A /\ d_vec_eta fuel P (d_l P) (slice sb 32 64) 0 = Some s1 /\ d_vec_eta fuel P (d_k P) (slice sb 32 64) (d_l P) = Some s2 /\
    bytes sb /\ length sb = 128%nat /\
    length A = d_k P /\ rows (d_l P) A /\ length s1 = d_l P /\ length s2 = d_k P /\ Forall (polyw (d_eta P)) s1 /\ Forall (polyw (d_eta P)) s2 /\
    length t = d_k P /\ Forall (fun p => length p = 256%nat /\ Forall (fun x => 0 <= x < dq) p) t /\
    pk = d_pack_pk rho t1 /\ sk = d_pack_sk P rho key (shake256_of [pk] 64) s1 s2 t0.
Proof.
  intros fuel P seed pk sk HP B L E. unfold d_keypair in E. cbv zeta in *.
  assert (FB : bytes (shake256_of [seed; [Z.of_nat (d_k P); Z.of_nat (d_l P)]] 128) /\ length (shake256_of [seed; [Z.of_nat (d_k P); Z.of_nat (d_l P)]] 128) = 128%nat).
  { apply shake_facts. constructor; auto. constructor; [|constructor]. destruct (dset_small P HP) as (Hk & Hl & _). repeat constructor; unfold byte; lia.
    cbn [concat]. rewrite !app_length. cbn [length]. lia. }
  destruct FB as [Bs Ls]. set (sb := shake256_of [seed; [Z.of_nat (d_k P); Z.of_nat (d_l P)]] 128) in *. clearbody sb.
  destruct (d_vec_eta fuel P (d_l P) (slice sb 32 64) 0) as [s1|] eqn:E1; [|discriminate].
  destruct (d_vec_eta fuel P (d_k P) (slice sb 32 64) (d_l P)) as [s2|] eqn:E2; [|discriminate].
  destruct (d_matrix_expand fuel P (slice sb 0 32)) as [A|] eqn:EA; [|discriminate].
  exists A, s1, s2. pose proof (dset_small P HP) as (Hk & Hl & He & _).
  destruct (matrix_sampled fuel P _ A HP (slice_bytes sb 0 32 Bs) ltac:(rewrite length_slice; lia) EA) as (LA & RA & _).
  destruct (vec_eta_sampled fuel P (d_l P) _ 0 s1 HP (slice_bytes sb 32 64 Bs) ltac:(rewrite length_slice; lia) ltac:(lia) E1) as [L1 W1].
  destruct (vec_eta_sampled fuel P (d_k P) _ (d_l P) s2 HP (slice_bytes sb 32 64 Bs) ltac:(rewrite length_slice; lia) ltac:(lia) E2) as [L2 W2].
  assert (Be : 0 <= d_eta P <= 4096) by (destruct He as [<-|[<-|[]]]; lia).
  pose proof (t_ok (d_l P) Hl A s1 s2 (d_eta P) Be RA W1 L1 W2 ltac:(congruence)) as T. rewrite T in E. clear T.
  set (t := dvec2 dRadd (map dNTTinv (dmatvec A (map dNTT s1))) s2) in *.
  assert (LM : length (map dNTTinv (dmatvec A (map dNTT s1))) = d_k P) by (unfold dmatvec; rewrite !map_length; exact LA).
  assert (Lt : length t = d_k P) by (unfold t; rewrite length_dvec2, LM, L2; lia).
  assert (Wt : Forall (fun p => length p = 256%nat /\ Forall (fun x => 0 <= x < dq) p) t).
  { apply Forall_forall. intros p Hp. destruct (In_nth _ p [] Hp) as (i & Hi & <-). rewrite Lt in Hi. unfold t. rewrite nth_dvec2 by lia.
    assert (Ls2 : length (nth i s2 []) = 256%nat) by (rewrite Forall_forall in W2; apply W2, nth_In; lia).
    assert (Lw : length (nth i (map dNTTinv (dmatvec A (map dNTT s1))) []) = 256%nat).
    { rewrite (nth_indep _ [] (dNTTinv [])) by lia. rewrite map_nth. apply dlength_NTTinv. }
    split. rewrite length_dRadd; congruence. unfold dRadd, M. apply Forall_forall. intros x Hx. apply in_map_iff in Hx. destruct Hx as (y & <- & _). apply Z.mod_pos_bound, dq_pos. }
  assert (E3 : pk = d_pack_pk (slice sb 0 32) (v_p2r_high t)) by congruence.
  assert (E4 : sk = d_pack_sk P (slice sb 0 32) (slice sb 96 32) (shake256_of [d_pack_pk (slice sb 0 32) (v_p2r_high t)] 64) s1 s2 (v_p2r_low t)) by congruence.
  clear E. rewrite <- E3 in E4. repeat (split; [first [assumption|reflexivity]|]). assumption.
Qed.
Lemma p2r_ranges : forall t, Forall (fun p => length p = 256%nat /\ Forall (fun x => 0 <= x < dq) p) t ->
  Forall (fun p => length p = 256%nat /\ inr 0 1023 p) (v_p2r_high t) /\ Forall (fun p => length p = 256%nat /\ inr (-4095) 4096 p) (v_p2r_low t) /\
  (forall i, (i < length t)%nat -> dRadd (map (fun x => x * 2 ^ 13) (nth i (v_p2r_high t) [])) (nth i (v_p2r_low t) []) = nth i t []).
Proof.
  intros t H. unfold v_p2r_high, v_p2r_low. rewrite Forall_forall in H. repeat split; try (apply Forall_forall; intros p Hp; apply in_map_iff in Hp; destruct Hp as (x & <- & Hx); destruct (H x Hx) as [L W]; split; [rewrite map_length; exact L|]; apply Forall_forall; intros c Hc; apply in_map_iff in Hc; destruct Hc as (y & <- & Hy); rewrite Forall_forall in W; pose proof (W y Hy) as R; destruct (dpower2round_eq y R) as (_ & A & B); lia).
  intros i Hi. change (@nil Z) with (map (fun a => fst (d_power2round a)) []) at 1. rewrite (map_nth (map (fun a => fst (d_power2round a)))).
  change (@nil Z) with (map (fun a => snd (d_power2round a)) []) at 2. rewrite (map_nth (map (fun a => snd (d_power2round a)))).
  destruct (H (nth i t []) (nth_In _ _ Hi)) as [L W]. set (p := nth i t []) in *. clearbody p. clear L Hi H. unfold dRadd.
  induction p as [|x p IH]; cbn [map padd M]; auto. pose proof (Forall_inv W) as R. cbv beta in R. apply Forall_inv_tail in W. f_equal.
  - destruct (dpower2round_eq x R) as (A & _). change (2 ^ 13) with 8192. rewrite <- A. apply Z.mod_small. exact R.
  - apply IH, W.
Qed.
