(** C57: the encodings of ML-DSA. *)
From Verif Require Import Bytes Words KeccakBytes KyberModel KyberSpec KyberCodec2 DilithiumModel DilithiumSpec DilithiumCodec DilithiumHint.
Require Import Lia.
Import ListNotations.

Definition poly_in (lo hi : Z) (a : list Z) : Prop := length a = 256%nat /\ Forall (fun c => lo <= c <= hi) a.

(** ** equal to the encodings of FIPS 204 *)
Theorem C57_equal_fips204 :
  (forall a, poly_in 0 1023 a -> d_polyt1_pack a = SimpleBitPack 10 a) /\
  (forall b, length b = 320%nat -> bytes b -> d_polyt1_unpack b = SimpleBitUnpack 10 b) /\
  (forall a, poly_in (-4095) 4096 a -> d_polyt0_pack a = BitPack 13 (2 ^ 12) a) /\
  (forall b, length b = 416%nat -> bytes b -> d_polyt0_unpack b = BitUnpack 13 (2 ^ 12) b) /\
  (forall eta n, In (eta, n) [(2, 3%nat); (4, 4%nat)] ->
     (forall a, poly_in (- eta) eta a -> d_polyeta_pack eta a = BitPack n eta a) /\
     (forall b, length b = (32 * n)%nat -> bytes b -> d_polyeta_unpack eta b = BitUnpack n eta b)) /\
  (forall g1 n, In (g1, n) [(2 ^ 17, 18%nat); (2 ^ 19, 20%nat)] ->
     (forall a, poly_in (- g1 + 1) g1 a -> d_polyz_pack g1 a = BitPack n g1 a) /\
     (forall b, length b = (32 * n)%nat -> bytes b -> d_polyz_unpack g1 b = BitUnpack n g1 b)) /\
  (forall a, poly_in 0 43 a -> d_polyw1_pack 95232 a = SimpleBitPack 6 a) /\
  (forall a, poly_in 0 15 a -> d_polyw1_pack 261888 a = SimpleBitPack 4 a).
Proof.
  split; [intros a [L H]; apply t1_pack_ok; auto|]. split; [exact t1_unpack_ok|].
  split; [intros a [L H]; apply t0_pack_ok; auto|]. split; [exact t0_unpack_ok|].
  split. { intros eta n [E|[E|[]]]; injection E as <- <-; split.
    - intros a [L H]. apply (eta_pack_ok 2); auto. left; auto.
    - intros b L H. apply (eta_unpack_ok 2); auto. left; auto.
    - intros a [L H]. apply (eta_pack_ok 4); auto. right; left; auto.
    - intros b L H. apply (eta_unpack_ok 4); auto. right; left; auto. }
  split. { intros g1 n [E|[E|[]]]; injection E as <- <-; split.
    - intros a [L H]. apply (z_pack_ok (2 ^ 17)); auto. left; auto.
    - intros b L H. apply (z_unpack_ok (2 ^ 17)); auto. left; auto.
    - intros a [L H]. apply (z_pack_ok (2 ^ 19)); auto. right; left; auto.
    - intros b L H. apply (z_unpack_ok (2 ^ 19)); auto. right; left; auto. }
  split; intros a [L H].
  - apply (w1_pack_ok 95232); auto. left; auto.
  - apply (w1_pack_ok 261888); auto. right; left; auto.
Qed.
Print Assumptions C57_equal_fips204.

(** ** unpacking inverts packing, for all coefficients in range *)
Theorem C57_unpack_pack :
  (forall a, poly_in 0 1023 a -> d_polyt1_unpack (d_polyt1_pack a) = a) /\
  (forall a, poly_in (-4095) 4096 a -> d_polyt0_unpack (d_polyt0_pack a) = a) /\
  (forall eta a, In eta [2; 4] -> poly_in (- eta) eta a -> d_polyeta_unpack eta (d_polyeta_pack eta a) = a) /\
  (forall g1 a, In g1 [2 ^ 17; 2 ^ 19] -> poly_in (- g1 + 1) g1 a -> d_polyz_unpack g1 (d_polyz_pack g1 a) = a) /\
  (forall a, poly_in 0 43 a -> SimpleBitUnpack 6 (d_polyw1_pack 95232 a) = a) /\
  (forall a, poly_in 0 15 a -> SimpleBitUnpack 4 (d_polyw1_pack 261888 a) = a).
Proof.
  assert (SB : forall n a, (0 < n)%nat -> poly_in 0 (2 ^ Z.of_nat n - 1) a -> SimpleBitUnpack n (SimpleBitPack n a) = a).
  { intros n a Hn [L H]. apply ByteDecode_Encode; auto. eapply Forall_impl; [|exact H]. cbv beta. intros; lia. }
  split. { intros a [L H]. rewrite t1_pack_ok by auto. rewrite t1_unpack_ok by (apply length_ByteEncode || apply bytes_ByteEncode). apply SB. lia. split; auto. }
  split. { intros a [L H]. rewrite t0_pack_ok by auto. rewrite t0_unpack_ok by (apply length_ByteEncode || apply bytes_ByteEncode). apply (BitUnpack_Pack 13 (2 ^ 12) (-4095)); auto. lia. lia. }
  split. { intros eta a He [L H]. rewrite eta_pack_ok by auto. rewrite eta_unpack_ok by (auto; apply length_ByteEncode || apply bytes_ByteEncode).
    apply (BitUnpack_Pack _ eta (- eta)); auto; destruct He as [<-|[<-|[]]]; vm_compute; auto. }
  split. { intros g1 a He [L H]. rewrite z_pack_ok by auto. rewrite z_unpack_ok by (auto; apply length_ByteEncode || apply bytes_ByteEncode).
    apply (BitUnpack_Pack _ g1 (- g1 + 1)); auto; destruct He as [<-|[<-|[]]]; vm_compute; auto; lia. }
  split; intros a [L H].
  - rewrite (w1_pack_ok 95232) by (auto; left; auto). apply SB. vm_compute; lia. split; auto. eapply Forall_impl; [|exact H]. cbv beta. change (2 ^ Z.of_nat (w1_bits 95232)) with 64. intros; lia.
  - rewrite (w1_pack_ok 261888) by (auto; right; left; auto). apply SB. vm_compute; lia. split; auto.
Qed.
Print Assumptions C57_unpack_pack.

(** ** packing inverts unpacking, for all byte strings: no two byte strings decode to the same polynomial. For eta the
    decoder does not check the range (eta = 2: three bits, values -5 .. 2), it is injective all the same. *)
Theorem C57_pack_unpack :
  (forall b, length b = 320%nat -> bytes b -> d_polyt1_pack (d_polyt1_unpack b) = b) /\
  (forall b, length b = 416%nat -> bytes b -> d_polyt0_pack (d_polyt0_unpack b) = b) /\
  (forall eta (b b' : list Z), In eta [2; 4] -> length b = (if Z.eqb eta 2 then 96 else 128)%nat -> length b' = length b -> bytes b -> bytes b' ->
     d_polyeta_unpack eta b = d_polyeta_unpack eta b' -> b = b') /\
  (forall g1 b, In g1 [2 ^ 17; 2 ^ 19] -> length b = (if Z.eqb g1 (2 ^ 17) then 576 else 640)%nat -> bytes b -> d_polyz_pack g1 (d_polyz_unpack g1 b) = b).
Proof.
  split. { intros b L B. rewrite t1_unpack_ok by auto. rewrite t1_pack_ok. apply ByteEncode_Decode; auto. lia. apply length_ByteDecode.
    pose proof (ByteDecode_range 10 b) as R. eapply Forall_impl; [|exact R]. cbv beta. change (2 ^ Z.of_nat 10) with 1024. intros; lia. }
  split. { intros b L B. rewrite t0_unpack_ok by auto. destruct (BitUnpack_range 13 (2 ^ 12) b) as [R Lb]. rewrite t0_pack_ok; auto. apply BitPack_Unpack; auto. lia. }
  split. { intros eta b b' He L L' B B' E. rewrite !eta_unpack_ok in E; auto; try (rewrite ?L', L; destruct He as [<-|[<-|[]]]; reflexivity).
    rewrite <- (BitPack_Unpack (eta_bits eta) eta b), <- (BitPack_Unpack (eta_bits eta) eta b'), E; auto; try (rewrite ?L', L); destruct He as [<-|[<-|[]]]; vm_compute; auto; lia. }
  intros g1 b He L B. assert (L' : length b = (32 * z_bits g1)%nat) by (rewrite L; destruct He as [<-|[<-|[]]]; reflexivity). rewrite z_unpack_ok by auto.
  destruct (BitUnpack_range (z_bits g1) g1 b) as [R Lb]. rewrite z_pack_ok; auto. apply BitPack_Unpack; auto. destruct He as [<-|[<-|[]]]; vm_compute; lia.
  eapply Forall_impl; [|exact R]. cbv beta. intros c Hc. destruct He as [<-|[<-|[]]]; [change (2 ^ Z.of_nat (z_bits (2 ^ 17))) with (2 * 2 ^ 17) in Hc|change (2 ^ Z.of_nat (z_bits (2 ^ 19))) with (2 * 2 ^ 19) in Hc]; lia.
Qed.
Print Assumptions C57_pack_unpack.
Example C57_poly_ex : d_polyt0_unpack (d_polyt0_pack (4096 :: -4095 :: -1 :: zeros 253)) = 4096 :: -4095 :: -1 :: zeros 253 /\
  firstn 4 (d_polyeta_unpack 2 (255 :: zeros 95)) = [-5; -5; -1; 2].
Proof. vm_compute. auto. Qed.

(** ** hints: the decoder accepts a string exactly when it is the encoding of a hint vector, which it returns *)
Theorem C57_hint_pack : forall P h, In P [ML_DSA_44; ML_DSA_65; ML_DSA_87] -> hint_vector (d_k P) (d_omega P) h ->
  d_pack_h P h = HintBitPack (d_omega P) h /\ length (d_pack_h P h) = (d_omega P + d_k P)%nat /\ bytes (d_pack_h P h).
Proof.
  intros P h HP HV. pose proof (dset_omega P HP) as Ho. rewrite pack_h_ok by auto. split; auto. split. apply (hint_len _ _ _ HV). apply (hint_bytes _ _ _ Ho HV).
Qed.
Print Assumptions C57_hint_pack.
Theorem C57_hint_canonical : forall P b h, In P [ML_DSA_44; ML_DSA_65; ML_DSA_87] -> bytes b -> length b = (d_omega P + d_k P)%nat ->
  (d_unpack_hb P b = Some h <-> hint_vector (d_k P) (d_omega P) h /\ b = d_pack_h P h).
Proof.
  intros P b h HP B L. rewrite unpack_hb_ok by auto. split; intros [HV E]; split; auto; rewrite E; [symmetry|]; apply pack_h_ok; auto; apply (dset_omega P HP).
Qed.
Print Assumptions C57_hint_canonical.

(** ** signatures: for each commitment hash, response and hint vector there is exactly one byte string that decodes to them *)
Theorem C57_signature : forall P ct z h, In P [ML_DSA_44; ML_DSA_65; ML_DSA_87] ->
  bytes ct -> length ct = d_ct P -> length z = d_l P -> Forall (poly_in (- d_g1 P + 1) (d_g1 P)) z -> hint_vector (d_k P) (d_omega P) h ->
  exists sg, bytes sg /\ length sg = sig_bytes P /\ forall sg', bytes sg' -> length sg' = sig_bytes P ->
    (firstn (d_ct P) sg' = ct /\ d_unpack_z P sg' = z /\ d_unpack_h P sg' = Some h <-> sg' = sg).
Proof.
  intros P ct z h HP Bc Lc Lz Rz HV. exists (d_pack_sig P ct z h). pose proof (dset_omega P HP) as Ho.
  destruct (dset_g1 P HP) as (G & Zb & Z0 & Z2).
  assert (PZ : flat_map (d_polyz_pack (d_g1 P)) z = flat_map (BitPack (z_bits (d_g1 P)) (d_g1 P)) z).
  { rewrite !flat_map_concat_map. apply f_equal. apply map_ext_in. intros p Hp. rewrite Forall_forall in Rz. destruct (Rz p Hp) as [Lp Rp]. apply z_pack_ok; auto. }
  split; [|split].
  - unfold d_pack_sig. rewrite PZ, pack_h_ok by auto. apply Forall_app. split; auto. apply Forall_app. split; [|apply (hint_bytes _ _ _ Ho HV)].
    apply Forall_flat_map, Forall_forall. intros; apply bytes_BitPack.
  - unfold d_pack_sig, sig_bytes. rewrite PZ, pack_h_ok, !app_length, (hint_len _ _ _ HV), Lc by auto.
    rewrite (length_flat _ (z_bytes P)) by (apply Forall_forall; intros; rewrite Zb; apply length_BitPack). lia.
  - intros sg' B L. pose proof (unpack_sig_iff P sg' ct z h HP B L) as U. unfold d_unpack_sig in U. split.
    + intros (E1 & E2 & E3). rewrite E1, E2, E3 in U. destruct (proj1 U eq_refl) as (_ & _ & _ & _ & E). exact E.
    + intro E. assert (X := proj2 U (conj Bc (conj Lc (conj (conj Lz Rz) (conj HV E))))). destruct (d_unpack_h P sg'); [|discriminate].
      split; [congruence|]. split; congruence.
Qed.
Print Assumptions C57_signature.
(** and every byte string that is accepted is one of them *)
Theorem C57_signature_accepted : forall P sg h, In P [ML_DSA_44; ML_DSA_65; ML_DSA_87] -> bytes sg -> length sg = sig_bytes P ->
  d_unpack_h P sg = Some h ->
  let ct := firstn (d_ct P) sg in let z := d_unpack_z P sg in
  length z = d_l P /\ Forall (poly_in (- d_g1 P + 1) (d_g1 P)) z /\ hint_vector (d_k P) (d_omega P) h /\ sg = d_pack_sig P ct z h.
Proof.
  intros P sg h HP B L E. cbv zeta. pose proof (unpack_sig_iff P sg (firstn (d_ct P) sg) (d_unpack_z P sg) h HP B L) as U.
  unfold d_unpack_sig in U. rewrite E in U. destruct (proj1 U eq_refl) as (_ & _ & [Lz Rz] & HV & ES). auto.
Qed.
Print Assumptions C57_signature_accepted.

(** a hint vector with three ones in two polynomials; its encoding; and neighbours of it that are refused:
    positions out of order, a repeated position, a count that goes down, padding that is not zero, a count above omega *)
Definition hv : list (list Z) := [zeros 3 ++ [1] ++ zeros 252; zeros 256; zeros 7 ++ [1; 1] ++ zeros 247; zeros 256].
Example C57_hint_ex : hint_vector 4 80 hv /\ d_pack_h ML_DSA_44 hv = [3; 7; 8] ++ zeros 77 ++ [1; 1; 3; 3] /\
  d_unpack_hb ML_DSA_44 ([3; 7; 8] ++ zeros 77 ++ [1; 1; 3; 3]) = Some hv /\
  d_unpack_hb ML_DSA_44 ([3; 8; 7] ++ zeros 77 ++ [1; 1; 3; 3]) = None /\
  d_unpack_hb ML_DSA_44 ([3; 7; 7] ++ zeros 77 ++ [1; 1; 3; 3]) = None /\
  d_unpack_hb ML_DSA_44 ([3; 7; 8] ++ zeros 77 ++ [1; 0; 3; 3]) = None /\
  d_unpack_hb ML_DSA_44 ([3; 7; 8; 9] ++ zeros 76 ++ [1; 1; 3; 3]) = None /\
  d_unpack_hb ML_DSA_44 ([3; 7; 8] ++ zeros 76 ++ [1; 1; 1; 3; 3]) = None /\
  d_unpack_hb ML_DSA_44 ([3; 7; 8] ++ zeros 77 ++ [1; 1; 3; 81]) = None.
Proof.
  split. { split; [reflexivity|]. split; [|vm_compute; lia]. repeat (apply Forall_cons; [split; [reflexivity|]; apply Forall_forall; intros x Hx; vm_compute in Hx; lia|]). apply Forall_nil. }
  vm_compute. repeat split; reflexivity.
Qed.
