(** C58: sampling in ML-DSA. A stream is a function from positions to bytes; [reader st] delivers it piece by piece
    from a position that it carries along, as the SHAKE context does. *)
From Verif Require Import Bytes Words KeccakBytes Fips202 Sha3Model KyberModel KyberSpec KyberSample KyberCodec2 DilithiumModel DilithiumSpec DilithiumCodec DilithiumHint DilithiumSample.
Require Import Lia.
Import ListNotations.

Definition reader (st : nat -> Z) (p n : nat) : list Z * nat := (map st (seq p n), (p + n)%nat).
(** FIPS 204, Algorithms 30 and 31, on a stream: the first 256 accepted candidates of some beginning of it *)
Definition accepted_256 (cand : list Z -> list Z) (st : nat -> Z) (a : list Z) : Prop :=
  length a = 256%nat /\ exists n, firstn 256 (cand (map st (seq 0 n))) = a.

Definition at_pos (st : nat -> Z) (p : nat) (T : nat -> Z) : Prop := (forall i, byte (st i)) /\ forall i, T i = st (p + i)%nat.
Lemma at_rd : forall st p T n, at_pos st p T -> fst (reader st p n) = take n T /\ at_pos st (snd (reader st p n)) (shift n T).
Proof.
  intros st p T n [B H]. unfold reader. cbn [fst snd]. split.
  - unfold take. apply (nth_ext _ _ 0 0). rewrite !map_length, !seq_length. reflexivity. intros i Hi. rewrite map_length, seq_length in Hi.
    rewrite !nth_map_seq by auto. rewrite H. reflexivity.
  - split; auto. intro i. unfold shift. rewrite H. f_equal. lia.
Qed.
Lemma at_bytes : forall st p T, at_pos st p T -> forall i, byte (T i).
Proof. intros st p T [B H] i. rewrite H. auto. Qed.
Lemma at_0 : forall st, (forall i, byte (st i)) -> at_pos st 0 st.
Proof. intros st H. split; auto. Qed.

(** ** what the functions return for every stream: the candidates are taken from the first 840 bytes and then from the first
    32 of every 168 (matrix), from the first 272 and then from the first 136 of every 272 (eta = 4), or from all (eta = 2) *)
Theorem C58_uniform_exact : forall st a, (forall i, byte (st i)) ->
  let st' := fun p => if (p <? 840)%nat then st p else st (840 + 168 * ((p - 840) / 32) + (p - 840) mod 32)%nat in
  (forall fuel, uniform_from nat (reader st) fuel 0%nat = Some a -> accepted_256 accept3 st' a) /\
  (accepted_256 accept3 st' a -> exists f0, forall fuel, (f0 <= fuel)%nat -> uniform_from nat (reader st) fuel 0%nat = Some a).
Proof.
  intros st a B st'. split.
  - intros fuel H. exact (uniform_from_sound nat (reader st) (at_pos st) (at_rd st) (at_bytes st) fuel 0%nat st a (at_0 st B) H).
  - intro H. exact (uniform_from_complete nat (reader st) (at_pos st) (at_rd st) (at_bytes st) 0%nat st a (at_0 st B) H).
Qed.
Print Assumptions C58_uniform_exact.
Theorem C58_eta2 : forall st a, (forall i, byte (st i)) ->
  (forall fuel, eta_from nat (reader st) fuel 2 0%nat = Some a -> accepted_256 (accept_eta 2) st a) /\
  (accepted_256 (accept_eta 2) st a -> exists f0, forall fuel, (f0 <= fuel)%nat -> eta_from nat (reader st) fuel 2 0%nat = Some a).
Proof.
  intros st a B. split.
  - intros fuel H. apply (eta_from_sound nat (reader st) (at_pos st) (at_rd st) (at_bytes st) 2 (or_introl eq_refl) fuel 0%nat st a (at_0 st B)) in H.
    apply (first256_ext _ (skipping 136 136 136 st)); auto. intro p. apply skipping_id. lia.
  - intro H. apply (eta_from_complete nat (reader st) (at_pos st) (at_rd st) (at_bytes st) 2 (or_introl eq_refl) 0%nat st a (at_0 st B)).
    apply (first256_ext _ st); auto. intro p. symmetry. apply skipping_id. vm_compute. lia.
Qed.
Print Assumptions C58_eta2.
Theorem C58_eta4_exact : forall st a, (forall i, byte (st i)) ->
  let st' := fun p => if (p <? 272)%nat then st p else st (272 + 272 * ((p - 272) / 136) + (p - 272) mod 136)%nat in
  (forall fuel, eta_from nat (reader st) fuel 4 0%nat = Some a -> accepted_256 (accept_eta 4) st' a) /\
  (accepted_256 (accept_eta 4) st' a -> exists f0, forall fuel, (f0 <= fuel)%nat -> eta_from nat (reader st) fuel 4 0%nat = Some a).
Proof.
  intros st a B st'. split.
  - intros fuel H. exact (eta_from_sound nat (reader st) (at_pos st) (at_rd st) (at_bytes st) 4 (or_intror (or_introl eq_refl)) fuel 0%nat st a (at_0 st B) H).
  - intro H. exact (eta_from_complete nat (reader st) (at_pos st) (at_rd st) (at_bytes st) 4 (or_intror (or_introl eq_refl)) 0%nat st a (at_0 st B) H).
Qed.
Print Assumptions C58_eta4_exact.

(** ** as the standard whenever one refill is enough: the full statement needs it without the condition on the length *)
Theorem C58_uniform_partial : forall st a fuel, (forall i, byte (st i)) -> (256 <= length (accept3 (map st (seq 0 872))))%nat ->
  uniform_from nat (reader st) fuel 0%nat = Some a -> accepted_256 accept3 st a.
Proof.
  intros st a fuel B H E. apply (uniform_from_sound nat (reader st) (at_pos st) (at_rd st) (at_bytes st) fuel 0%nat st a (at_0 st B)) in E.
  apply (first256_within accept3 (skipping 840 168 32 st) st a 872); auto. apply accept3_mono. intros p Hp. apply skipping_small; lia.
Qed.
Print Assumptions C58_uniform_partial.
Theorem C58_eta4_partial : forall st a fuel, (forall i, byte (st i)) -> (256 <= length (accept_eta 4 (map st (seq 0 408))))%nat ->
  eta_from nat (reader st) fuel 4 0%nat = Some a -> accepted_256 (accept_eta 4) st a.
Proof.
  intros st a fuel B H E. apply (eta_from_sound nat (reader st) (at_pos st) (at_rd st) (at_bytes st) 4 (or_intror (or_introl eq_refl)) fuel 0%nat st a (at_0 st B)) in E.
  apply (first256_within (accept_eta 4) (skipping 272 272 136 st) st a 408); auto. apply accept_eta_mono. intros p Hp. apply skipping_small; lia.
Qed.
Print Assumptions C58_eta4_partial.
(** a stream whose first 840 bytes give 200 coefficients and the first 32 bytes after them none, and one which needs no refill *)
Definition st_plain (i : nat) : Z := Z.of_nat (i mod 251).
Example C58_uniform_ex : (256 <= length (accept3 (map st_plain (seq 0 872))))%nat /\ (256 <= length (accept_eta 4 (map st_plain (seq 0 408))))%nat /\
  (exists a, uniform_from nat (reader st_plain) 0 0%nat = Some a) /\ (exists a, eta_from nat (reader st_plain) 1 4 0%nat = Some a) /\
  (exists a, eta_from nat (reader st_plain) 1 2 0%nat = Some a).
Proof.
  split. vm_compute; lia. split. vm_compute; lia.
  split; [|split]; match goal with |- exists a, ?x = Some a => assert (H : x <> None) by (vm_compute; discriminate); destruct x; [eauto|congruence] end.
Qed.

(** ** refuted for all streams *)
(** 840 bytes ff (no candidate is below q), then bytes that name their position *)
Definition st_bad (i : nat) : Z := if (i <? 840)%nat then 255 else Z.of_nat ((i / 3) mod 100).
Lemma st_bad_bytes : forall i, byte (st_bad i).
Proof. intro. unfold st_bad, byte. destruct (_ <? _)%nat. lia. pose proof (Nat.mod_upper_bound (i / 3) 100). lia. Qed.
Theorem C58_uniform_refuted : exists st, (forall i, byte (st i)) /\ exists fuel a a',
  uniform_from nat (reader st) fuel 0%nat = Some a /\ accepted_256 accept3 st a' /\ a <> a'.
Proof.
  exists st_bad. split; [exact st_bad_bytes|]. exists 25%nat.
  assert (H : uniform_from nat (reader st_bad) 25 0%nat <> None) by (vm_compute; discriminate).
  destruct (uniform_from nat (reader st_bad) 25 0%nat) as [a|] eqn:E; [|congruence]. clear H.
  exists a, (firstn 256 (accept3 (map st_bad (seq 0 1608)))). split; [reflexivity|]. split.
  - split. vm_compute; reflexivity. exists 1608%nat. reflexivity.
  - intro X. assert (Y : nth 12 a 0 = nth 12 (firstn 256 (accept3 (map st_bad (seq 0 1608)))) 0) by (rewrite X; reflexivity).
    assert (W : match uniform_from nat (reader st_bad) 25 0%nat with Some a => nth 12 a 0 | None => 0 end = nth 12 a 0) by (rewrite E; reflexivity).
    rewrite Y in W. revert W. vm_compute. discriminate.
Qed.
Print Assumptions C58_uniform_refuted.
(** eta = 4: nibbles f are rejected; 272 bytes without a candidate, then two refills *)
Definition st_bad4 (i : nat) : Z := if (i <? 272)%nat then 255 else if (i <? 408)%nat then 240 else if (i <? 544)%nat then 241 else 242.
Theorem C58_eta4_refuted : exists st, (forall i, byte (st i)) /\ exists fuel a a',
  eta_from nat (reader st) fuel 4 0%nat = Some a /\ accepted_256 (accept_eta 4) st a' /\ a <> a'.
Proof.
  exists st_bad4. split. { intro. unfold st_bad4, byte. repeat (destruct (_ <? _)%nat); lia. } exists 2%nat.
  assert (H : eta_from nat (reader st_bad4) 2 4 0%nat <> None) by (vm_compute; discriminate).
  destruct (eta_from nat (reader st_bad4) 2 4 0%nat) as [a|] eqn:E; [|congruence]. clear H.
  exists a, (firstn 256 (accept_eta 4 (map st_bad4 (seq 0 544)))). split; [reflexivity|]. split.
  - split. vm_compute; reflexivity. exists 544%nat. reflexivity.
  - intro X. assert (Y : nth 200 a 0 = nth 200 (firstn 256 (accept_eta 4 (map st_bad4 (seq 0 544)))) 0) by (rewrite X; reflexivity).
    assert (W : match eta_from nat (reader st_bad4) 2 4 0%nat with Some a => nth 200 a 0 | None => 0 end = nth 200 a 0) by (rewrite E; reflexivity).
    rewrite Y in W. revert W. vm_compute. discriminate.
Qed.
Print Assumptions C58_eta4_refuted.

(** ** with SHAKE: the functions of the library against FIPS 204 *)
Theorem C58_poly_uniform_partial : forall rho nonce a fuel, bytes rho -> length rho = 32%nat -> 0 <= nonce < 65536 ->
  (256 <= length (accept3 (SHAKE128 (rho ++ IntegerToBytes2 nonce) 872)))%nat ->
  d_poly_uniform fuel rho nonce = Some a -> RejNTTPoly (rho ++ IntegerToBytes2 nonce) a.
Proof.
  intros rho nonce a fuel B L N H E. assert (Ln : (length rho <= 64)%nat) by lia. apply (RejNTT_first256 rho nonce Ln). apply (proj1 (poly_uniform_skips rho nonce B Ln N a)) in E.
  apply (first256_within accept3 (skipping 840 168 32 (sh128 (rho ++ IntegerToBytes2 nonce))) (sh128 (rho ++ IntegerToBytes2 nonce)) a 872); [apply accept3_mono| intros p Hp; apply skipping_small; lia| rewrite take_sh128; exact H|exact E].
Qed.
Print Assumptions C58_poly_uniform_partial.
Theorem C58_poly_eta2 : forall rho nonce a, bytes rho -> length rho = 64%nat -> 0 <= nonce < 65536 ->
  (forall fuel, d_poly_uniform_eta fuel 2 rho nonce = Some a -> RejBoundedPoly 2 (rho ++ IntegerToBytes2 nonce) a) /\
  (RejBoundedPoly 2 (rho ++ IntegerToBytes2 nonce) a -> exists f0, forall fuel, (f0 <= fuel)%nat -> d_poly_uniform_eta fuel 2 rho nonce = Some a).
Proof.
  intros rho nonce a B L N. assert (Ln : (length rho <= 64)%nat) by lia. pose proof (RejBounded_first256 rho nonce 2 a) as X. destruct (poly_eta_skips rho nonce B Ln N 2 a (or_introl eq_refl)) as [S1 S2].
  set (T := sh256 (rho ++ IntegerToBytes2 nonce)) in *. clearbody T. split.
  - intros fuel H. apply S1 in H. apply X. apply (first256_ext _ (skipping 136 136 136 T)); auto. intro p. apply skipping_id. lia.
  - intro H. apply S2. apply X in H. apply (first256_ext _ T); auto. intro p. symmetry. apply (skipping_id 136 136 T). lia.
Qed.
Print Assumptions C58_poly_eta2.
Theorem C58_poly_eta4_partial : forall rho nonce a fuel, bytes rho -> length rho = 64%nat -> 0 <= nonce < 65536 ->
  (256 <= length (accept_eta 4 (SHAKE256 (rho ++ IntegerToBytes2 nonce) 408)))%nat ->
  d_poly_uniform_eta fuel 4 rho nonce = Some a -> RejBoundedPoly 4 (rho ++ IntegerToBytes2 nonce) a.
Proof.
  intros rho nonce a fuel B L N H E. apply RejBounded_first256. assert (Ln : (length rho <= 64)%nat) by lia. apply (proj1 (poly_eta_skips rho nonce B Ln N 4 a (or_intror (or_introl eq_refl)))) in E.
  apply (first256_within (accept_eta 4) (skipping 272 272 136 (sh256 (rho ++ IntegerToBytes2 nonce))) (sh256 (rho ++ IntegerToBytes2 nonce)) a 408); [apply accept_eta_mono| intros p Hp; apply skipping_small; lia| rewrite take_sh256; exact H|exact E].
Qed.
Print Assumptions C58_poly_eta4_partial.
(** the challenge polynomial is that of SampleInBall, for every commitment hash *)
Theorem C58_challenge : forall P ct c, In P [ML_DSA_44; ML_DSA_65; ML_DSA_87] -> bytes ct -> length ct = d_ct P ->
  (forall fuel, d_poly_challenge fuel P ct = Some c -> SampleInBall (d_tau P) ct c) /\
  (SampleInBall (d_tau P) ct c -> exists f0, forall fuel, (f0 <= fuel)%nat -> d_poly_challenge fuel P ct = Some c).
Proof.
  intros P ct c HP B L. apply challenge_ok; auto; destruct HP as [<-|[<-|[<-|[]]]]; cbn in *; lia.
Qed.
Print Assumptions C58_challenge.
(** the mask polynomial *)
Theorem C58_mask : forall P rho nonce, In P [ML_DSA_44; ML_DSA_65; ML_DSA_87] -> bytes rho -> length rho = 64%nat -> 0 <= nonce < 65536 ->
  d_poly_uniform_gamma1 P rho nonce =
    BitUnpack (if d_g1 P =? 2 ^ 17 then 18 else 20) (d_g1 P) (SHAKE256 (rho ++ IntegerToBytes2 nonce) (32 * (if d_g1 P =? 2 ^ 17 then 18 else 20))).
Proof.
  intros P rho nonce HP B L N. destruct (dset_g1 P HP) as (G & Zb & _ & _). fold (z_bits (d_g1 P)).
  assert (E : firstn (z_bytes P) (fst (xof_read permB (keccak_updates permB (keccak_init alg_shake256) [rho; le16 nonce]) 680)) = SHAKE256 (rho ++ IntegerToBytes2 nonce) (32 * z_bits (d_g1 P))).
  { assert (Ln : (length rho <= 64)%nat) by lia. pose proof (R256 rho nonce B Ln N) as R. destruct (RK_rd _ _ 680 R) as [E _]. rewrite E. rewrite firstn_take, take_sh256, Zb. reflexivity.
    destruct HP as [<-|[<-|[<-|[]]]]; vm_compute; lia. }
  unfold d_poly_uniform_gamma1. rewrite E. assert (BB : bytes (rho ++ IntegerToBytes2 nonce)).
  { apply Forall_app. split; auto. rewrite <- le16_spec by auto. apply le16_bytes. }
  apply z_unpack_ok; auto. apply SHAKE256_len. apply SHAKE256_bytes; auto.
Qed.
Print Assumptions C58_mask.
(** the conditions on the number of accepted candidates for a concrete seed (evaluated with the SHAKE of the model, equal to that of FIPS 202 by C03, when this file is compiled), and
    that of the theorems on challenge and mask *)
Ltac evaluates b := let r := eval vm_compute in b in match r with true => exact I end.
Definition C58_shake_ex : True := ltac:(evaluates (Nat.leb 256 (length (accept3 (fst (xof_read permB (keccak_updates permB (keccak_init alg_shake128) [map Z.of_nat (seq 0 32) ++ IntegerToBytes2 258]) 872)))) &&
   Nat.leb 256 (length (accept_eta 4 (fst (xof_read permB (keccak_updates permB (keccak_init alg_shake256) [map Z.of_nat (seq 0 64) ++ IntegerToBytes2 7]) 408)))) &&
   match d_poly_uniform 3 (map Z.of_nat (seq 0 32)) 258 with Some a => Nat.eqb (length a) 256 | None => false end &&
   match d_poly_uniform_eta 3 4 (map Z.of_nat (seq 0 64)) 7 with Some a => Nat.eqb (length a) 256 | None => false end &&
   match d_poly_uniform_eta 3 2 (map Z.of_nat (seq 0 64)) 7 with Some a => Nat.eqb (length a) 256 | None => false end &&
   match d_poly_challenge 300 ML_DSA_44 (map Z.of_nat (seq 0 32)) with Some a => Nat.eqb (length (filter (fun x => negb (x =? 0)) a)) 39 | None => false end)%bool).
Example C58_ex : bytes (map Z.of_nat (seq 0 64)) /\ length (map Z.of_nat (seq 0 32)) = d_ct ML_DSA_44.
Proof. split; [|reflexivity]. cbn. repeat constructor; unfold byte; lia. Qed.
