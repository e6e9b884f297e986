(** * C105: Ed25519 signatures

    The point functions are arguments; what is assumed of them is the record
    [curve] below, satisfied by the example at the end. *)
From Coq Require Import ZArith List Lia Bool Znumtheory.
From Verif Require Import X25519Spec Curve25519Proof Curve25519Bytes ScModel ScProof ScTop ScCanon PropScalar Ed25519Spec Ed25519Model.
From Verif Require Curve25519Model.
Import ListNotations.
Open Scope Z_scope.

(** what the theorems assume of the point functions: [pt] is the point a
    representation stands for *)
Record curve (p3 G : Type) (pt : p3 -> G) (eqG : G -> G -> Prop) (add : G -> G -> G) (neg : G -> G) (zero : G)
    (smul : Z -> G -> G) (B : G)
    (smb : list Z -> p3) (tob : p3 -> list Z) (fromb fromb_neg : list Z -> option p3) (small : p3 -> Z)
    (dsm : list Z -> p3 -> list Z -> p3) (psub : p3 -> p3 -> p3) : Prop := {
  c_group : group G eqG add neg zero smul;
  (** the base point has order [L8032] *)
  c_order : forall n, eqG (smul n B) zero <-> (L8032 | n);
  c_smb : forall s, length s = 32%nat -> Forall byteZ s -> le s < 2 ^ 255 -> eqG (pt (smb s)) (smul (le s) B);
  c_tob : forall P, length (tob P) = 32%nat /\ Forall byteZ (tob P) /\ le (tob P) mod 2 ^ 255 < 2 ^ 255 - 19;
  c_tob_eq : forall P Q, eqG (pt P) (pt Q) -> tob P = tob Q;
  c_fromb_tob : forall P, exists Q, fromb (tob P) = Some Q /\ eqG (pt Q) (pt P);
  c_neg : forall s, match fromb s, fromb_neg s with
                    | Some P, Some Q => eqG (pt Q) (neg (pt P))
                    | None, None => True
                    | _, _ => False
                    end;
  c_dsm : forall h A s, length h = 32%nat -> Forall byteZ h -> length s = 32%nat -> Forall byteZ s ->
     le h < L8032 -> le s < L8032 -> eqG (pt (dsm h A s)) (add (smul (le h) (pt A)) (smul (le s) B));
  c_psub : forall P Q, eqG (pt (psub P Q)) (add (pt P) (neg (pt Q)));
  (** the small-order test: 0 or 1, exact on decoded points, true on the
      neutral element in every representation *)
  c_small_01 : forall P, small P = 0 \/ small P = 1;
  c_small_fromb : forall s P, fromb s = Some P \/ fromb_neg s = Some P -> (small P = 1 <-> eqG (smul 8 (pt P)) zero);
  c_small_zero : forall P, eqG (pt P) zero -> small P = 1
}.

Lemma L_eq : L25519 = L8032. Proof. reflexivity. Qed.
Lemma ell_L : ell = L8032. Proof. reflexivity. Qed.
Lemma L_pos : 0 < L8032. Proof. reflexivity. Qed.
Lemma L_256 : L8032 < 256 ^ Z.of_nat 32. Proof. reflexivity. Qed.
Lemma gcd8 : rel_prime L8032 8.
Proof. apply Zgcd_1_rel_prime. reflexivity. Qed.
Lemma mod_L : forall v, 0 <= v mod L8032 < L8032.
Proof. intros v. apply Z.mod_pos_bound. reflexivity. Qed.
Lemma le_L : forall v, le (to_le 32 (v mod L8032)) = v mod L8032.
Proof. intros v. apply le_to_le. pose proof (mod_L v). pose proof L_256. lia. Qed.

Lemma clamp_first : forall az, length az = 64%nat -> firstn 32 (clamp az) = Curve25519Model.clamp (firstn 32 az).
Proof.
  intros az L. do 65 (destruct az as [|? az]; try discriminate L). reflexivity.
Qed.

Lemma first_app : forall (a b : list Z) n, length a = n -> firstn n (a ++ b) = a.
Proof. intros a b n <-. rewrite firstn_app, Nat.sub_diag, firstn_all. apply app_nil_r. Qed.
Lemma skip_app : forall (a b : list Z) n, length a = n -> skipn n (a ++ b) = b.
Proof. intros a b n <-. rewrite skipn_app, Nat.sub_diag, skipn_all. reflexivity. Qed.

Lemma clamp_len : forall n, length n = 32%nat -> length (Curve25519Model.clamp n) = 32%nat.
Proof. intros n L. do 33 (destruct n as [|? n]; try discriminate L). reflexivity. Qed.

Lemma scalar_range : forall n, 2 ^ 254 <= decode_scalar n < 2 ^ 255 /\ exists m, decode_scalar n = 8 * m.
Proof.
  intros n. unfold decode_scalar.
  assert (R : 0 <= le n mod 2 ^ 254 < 2 ^ 254) by (apply Z.mod_pos_bound; reflexivity).
  pose proof (Z.div_mod (le n mod 2 ^ 254) 8 ltac:(lia)). pose proof (Z.mod_pos_bound (le n mod 2 ^ 254) 8 ltac:(lia)).
  assert (E : 2 ^ 255 = 2 * 2 ^ 254) by reflexivity. assert (E8 : 2 ^ 254 = 8 * 2 ^ 251) by reflexivity. split.
  - rewrite E. assert (0 <= le n mod 2 ^ 254 / 8) by (apply Z.div_pos; lia). lia.
  - exists (le n mod 2 ^ 254 / 8 + 2 ^ 251). rewrite E8 at 2. ring.
Qed.

Section Props.
Variables (p3 G : Type) (pt : p3 -> G) (eqG : G -> G -> Prop) (add : G -> G -> G) (neg : G -> G) (zero : G)
    (smul : Z -> G -> G) (B : G)
    (smb : list Z -> p3) (tob : p3 -> list Z) (fromb fromb_neg : list Z -> option p3) (small : p3 -> Z)
    (dsm : list Z -> p3 -> list Z -> p3) (psub : p3 -> p3 -> p3).
Hypothesis C : curve p3 G pt eqG add neg zero smul B smb tob fromb fromb_neg small dsm psub.
Variable sha : list Z -> list Z.
Hypothesis sha_len : forall m, length (sha m) = 64%nat.
Hypothesis sha_bytes : forall m, Forall byteZ (sha m).

Notation sign := (sign p3 smb tob sha).
Notation verify := (verify p3 fromb fromb_neg small dsm psub sha).
Notation keypair := (keypair p3 smb tob sha).

(** the encoding of [n]B *)
Definition encB (n : Z) : list Z := tob (smb (to_le 32 n)).

Lemma smb_ok : forall s, length s = 32%nat -> Forall byteZ s -> le s < 2 ^ 255 -> tob (smb s) = encB (le s).
Proof using C.
  intros s L H R. unfold encB. apply (c_tob_eq _ _ _ _ _ _ _ _ _ _ _ _ _ _ _ _ C).
  destruct C as [g _ S _ _ _ _ _ _ _ _ _]. destruct g.
  pose proof (le_nonneg s H) as Q. rewrite L in Q.
  eapply g_trans; [apply S; assumption|]. apply g_sym.
  eapply g_trans; [apply S|].
  - apply to_le_length.
  - apply to_le_bytes.
  - rewrite le_to_le by exact Q. exact R.
  - rewrite le_to_le by exact Q. apply g_refl.
Qed.

Lemma scalar_ok : forall az, length az = 64%nat -> Forall byteZ az ->
  length (firstn 32 (clamp az)) = 32%nat /\ Forall byteZ (firstn 32 (clamp az)) /\
  le (firstn 32 (clamp az)) = decode_scalar (firstn 32 az).
Proof using.
  intros az L H. rewrite clamp_first by exact L.
  assert (L32 : length (firstn 32 az) = 32%nat) by (rewrite firstn_length; lia).
  destruct (clamp_ok (firstn 32 az) L32 (Forall_firstn 32 _ H)) as [E F].
  split; [apply clamp_len, L32|]. split; assumption.
Qed.

(** Key generation: the secret key is the seed followed by the public key of
    RFC 8032 5.1.5. *)
Theorem C105_keypair : forall pk sk seed,
  keypair (Some pk) (Some sk) (0, seed) =
  (0, Some (public_key sha encB seed), Some (seed ++ public_key sha encB seed)).
Proof using C sha_len sha_bytes.
  intros pk sk seed. unfold Ed25519Model.keypair. change (0 <? 0) with false. cbv iota.
  destruct (scalar_ok (sha seed) (sha_len seed) (sha_bytes seed)) as (L & F & E).
  rewrite smb_ok; [|assumption|assumption|].
  - rewrite E. reflexivity.
  - rewrite E. apply scalar_range.
Qed.

(** Signing without a random number generator is RFC 8032 5.1.6 for every
    message, and for a key that is the seed followed by any 32 bytes. *)
Theorem C105_sign : forall sig ph msg seed A, length seed = 32%nat -> length A = 32%nat ->
  sign (Some sig) ph msg (Some (seed ++ A)) None None = Some (0, Some (sign8032 sha encB ph seed A msg)).
Proof using C sha_len sha_bytes.
  intros sig ph msg seed A Ls LA. unfold Ed25519Model.sign. rewrite first_app by exact Ls.
  change (0 <? 0) with false. cbv iota. cbn [app]. unfold finish_sign.
  assert (LH : length (skipn 32 (sha seed)) = 32%nat) by (rewrite skipn_length, sha_len; reflexivity).
  rewrite (firstn_all2 (n := 32) (skipn 32 (sha seed))) by lia.
  assert (D : dom2 ph = dom2_8032 ph) by (destruct ph; reflexivity). rewrite D.
  rewrite (C104_reduce _ (sha_len _) (sha_bytes _)), ell_L.
  fold (nonce8032 sha ph seed msg). set (r := nonce8032 sha ph seed msg).
  assert (Rr : 0 <= r < L8032) by apply mod_L.
  assert (Lr : le (to_le 32 r) = r) by (apply le_to_le; pose proof L_256; lia).
  rewrite smb_ok; [|apply to_le_length|apply to_le_bytes|rewrite Lr; assert (L8032 < 2 ^ 255) by reflexivity; lia].
  rewrite Lr. rewrite (skip_app seed A 32 Ls), (firstn_all2 (n := 32) A) by lia.
  rewrite <- app_assoc. cbn [app]. rewrite (C104_reduce _ (sha_len _) (sha_bytes _)), ell_L.
  fold (challenge sha ph (encB r) A msg). set (k := challenge sha ph (encB r) A msg).
  destruct (scalar_ok (sha seed) (sha_len seed) (sha_bytes seed)) as (L & F & E).
  rewrite C104_muladd by (try assumption; try apply to_le_length; try apply to_le_bytes).
  rewrite E, Lr, ell_L. assert (Lk : le (to_le 32 k) = k) by apply le_L. rewrite Lk.
  unfold sign8032. fold r. fold k. fold (secret_scalar sha seed). now rewrite (Z.add_comm r).
Qed.

(** The randomised and the composite variants also answer 0 with an S below
    the group order, whatever the noise and the extra bytes. *)
Theorem C105_sign_any : forall sig ph msg sk rng ds,
  (forall x, ds = Some x -> fst x = 0) ->
  (rng = None \/ exists out, rng = Some (0, out)) ->
  exists r s, sign (Some sig) ph msg (Some sk) rng ds = Some (0, Some (encB r ++ s)) /\
    0 <= r < L8032 /\ length s = 32%nat /\ le s < L8032.
Proof using C sha_len sha_bytes.
  intros sig ph msg sk rng ds Hd Hr. unfold Ed25519Model.sign.
  assert (K : forall nz d, exists r s, finish_sign p3 smb tob sha 0 ph msg sk (sha (firstn 32 sk)) (sha nz) d = Some (0, Some (encB r ++ s)) /\
     0 <= r < L8032 /\ length s = 32%nat /\ le s < L8032).
  { intros nz d. unfold finish_sign. rewrite (C104_reduce _ (sha_len _) (sha_bytes _)), ell_L.
    set (r := le (sha nz) mod L8032). assert (Rr : 0 <= r < L8032) by apply mod_L.
    assert (Lr : le (to_le 32 r) = r) by (apply le_to_le; pose proof L_256; lia).
    rewrite (C104_reduce _ (sha_len _) (sha_bytes _)).
    destruct (scalar_ok (sha (firstn 32 sk)) (sha_len _) (sha_bytes _)) as (L & F & E).
    rewrite C104_muladd by (try assumption; try apply to_le_length; try apply to_le_bytes). rewrite ell_L.
    exists r. eexists. split; [reflexivity|]. split; [exact Rr|]. split; [apply to_le_length|].
    rewrite le_L. apply mod_L. }
  destruct Hr as [->|[out ->]]; destruct ds as [[rd d]|];
    try (specialize (Hd _ eq_refl); cbn [fst] in Hd; subst rd); change (0 <? 0) with false; cbv iota; apply K.
Qed.

(** Verification: the exact answer.  0 only if S is below the group order, the
    public key is a canonical encoding, both points decode and are not of small
    order, and the small-order test holds for R - ([S]B - [k]A). *)
Theorem C105_verify_exact : forall R s ph msg pk,
  length R = 32%nat -> Forall byteZ R -> length s = 32%nat -> Forall byteZ s -> length pk = 32%nat -> Forall byteZ pk ->
  exists ret, verify (Some (R ++ s)) ph msg (Some pk) None = Some ret /\ (ret = 0 \/ ret = -22 \/ ret = -74) /\
  (ret <> -22 <-> le s < L8032 /\ le pk mod 2 ^ 255 < 2 ^ 255 - 19 /\
     (exists P, fromb pk = Some P /\ ~ eqG (smul 8 (pt P)) zero) /\
     (exists P, fromb R = Some P /\ ~ eqG (smul 8 (pt P)) zero)) /\
  (ret <> -22 -> exists Rp A chk, fromb R = Some Rp /\ fromb pk = Some A /\
     eqG (pt chk) (add (pt Rp) (neg (add (smul (challenge sha ph R pk msg) (neg (pt A))) (smul (le s) B)))) /\
     (ret = 0 <-> small chk = 1)).
Proof using C sha_len sha_bytes.
  intros R s ph msg pk LR HR Ls Hs Lp Hp. unfold Ed25519Model.verify.
  rewrite (first_app R s 32 LR), (skip_app R s 32 LR), (firstn_all2 (n := 32) s) by lia.
  assert (E63 : nth 63 (R ++ s) 0 = nth 31 s 0) by (rewrite app_nth2 by lia; rewrite LR; reflexivity).
  rewrite E63.
  assert (CS : negb (Z.land (nth 31 s 0) 240 =? 0) && (sc_is_canonical s =? 0) = negb (le s <? L8032)).
  { rewrite (sc_canonical_ok s Ls Hs), L_eq. destruct (Z.ltb_spec (le s) L8032); cbn [negb]; [apply andb_false_r|].
    rewrite andb_true_r. destruct (Z.eqb_spec (Z.land (nth 31 s 0) 240) 0) as [E|E]; [|reflexivity]. exfalso.
    assert (B31 : byteZ (nth 31 s 0)) by (apply (proj1 (Forall_forall _ _) Hs), nth_In; lia).
    assert (N16 : nth 31 s 0 < 16).
    { assert (Q : (fun b => negb (Z.land b 240 =? 0) || (b <? 16)) (nth 31 s 0) = true).
      { apply (byte_cases (fun b => negb (Z.land b 240 =? 0) || (b <? 16))); [vm_compute; reflexivity|exact B31]. }
      cbn beta in Q. rewrite E in Q. change (negb (0 =? 0)) with false in Q. cbn [orb] in Q. lia. }
    assert (S' : s = firstn 31 s ++ [nth 31 s 0]).
    { clear - Ls. do 33 (destruct s as [|? s]; try discriminate Ls). reflexivity. }
    assert (LF : length (firstn 31 s) = 31%nat) by (rewrite firstn_length; lia).
    pose proof (le_nonneg _ (Forall_firstn 31 _ Hs)) as Q. rewrite LF in Q.
    assert (V : le s = le (firstn 31 s) + 256 ^ Z.of_nat 31 * (nth 31 s 0 + 256 * 0)) by (rewrite S' at 1; rewrite le_app, LF; reflexivity).
    set (W := 256 ^ Z.of_nat 31) in *. assert (LW : 16 * W <= L8032) by (intro X; discriminate X).
    unfold byteZ in B31. nia. }
  rewrite CS, (ge_canonical_ok pk Lp Hp). change (decode_u pk) with (le pk mod 2 ^ 255). change p25519 with (2 ^ 255 - 19).
  destruct (Z.ltb_spec (le s) L8032) as [S1|S1]; cbn [negb].
  2: { exists (-22). split; [reflexivity|]. split; [auto|]. split; [|intros X; congruence]. split; [congruence|]. intros (X & _). lia. }
  destruct (Z.ltb_spec (le pk mod 2 ^ 255) (2 ^ 255 - 19)) as [S2|S2]; [change (1 =? 0) with false|change (0 =? 0) with true]; cbv iota.
  2: { exists (-22). split; [reflexivity|]. split; [auto|]. split; [|intros X; congruence]. split; [congruence|]. intros (_ & X & _). lia. }
  destruct C as [g O _ _ _ _ N D PS S01 SF SZ].
  pose proof (N pk) as Np. destruct (fromb_neg pk) as [A|] eqn:EA; destruct (fromb pk) as [A0|] eqn:EA0; try contradiction.
  2: { exists (-22). split; [reflexivity|]. split; [auto|]. split; [|intros X; congruence]. split; [congruence|]. intros (_ & _ & (P & X & _) & _). discriminate X. }
  assert (NEG8 : eqG (smul 8 (pt A)) zero <-> eqG (smul 8 (pt A0)) zero).
  { destruct g. assert (Z8 : eqG (add (smul 8 (pt A0)) (smul 8 (pt A))) zero).
    { eapply g_trans; [apply g_sym, g_smul_dist|]. eapply g_trans; [apply g_smul; eapply g_trans; [apply g_add; [apply g_refl|exact Np]|apply g_neg]|].
      eapply g_trans; [apply g_smul, g_sym, (g_smul_0 zero)|]. eapply g_trans; [apply g_sym, g_smul_mul|]. change (8 * 0) with 0. apply g_smul_0. }
    split; intros X.
    - eapply g_trans; [apply g_sym, g_zero|]. eapply g_trans; [apply g_add; [apply g_refl|apply g_sym, X]|]. exact Z8.
    - eapply g_trans; [apply g_sym, g_zero|]. eapply g_trans; [apply g_add; [apply g_refl|apply g_sym, X]|].
      eapply g_trans; [apply g_comm|]. exact Z8. }
  pose proof (SF pk A (or_intror EA)) as SA. rewrite NEG8 in SA.
  destruct (S01 A) as [XA|XA]; rewrite XA; [change (0 =? 0) with true|change (1 =? 0) with false]; cbn [negb].
  2: { exists (-22). split; [reflexivity|]. split; [auto|]. split; [|intros X; congruence]. split; [congruence|].
       intros (_ & _ & (P & X & Y) & _). injection X as <-. exfalso. apply Y, SA, XA. }
  destruct (fromb R) as [Rp|] eqn:ER.
  2: { exists (-22). split; [reflexivity|]. split; [auto|]. split; [|intros X; congruence]. split; [congruence|].
       intros (_ & _ & _ & (P & X & _)). discriminate X. }
  pose proof (SF R Rp (or_introl ER)) as SR.
  destruct (S01 Rp) as [XR|XR]; rewrite XR; [change (0 =? 0) with true|change (1 =? 0) with false]; cbn [negb].
  2: { exists (-22). split; [reflexivity|]. split; [auto|]. split; [|intros X; congruence]. split; [congruence|].
       intros (_ & _ & _ & (P & X & Y)). injection X as <-. exfalso. apply Y, SR, XR. }
  change (0 <? 0) with false. cbv iota. cbn [app].
  assert (DM : dom2 ph = dom2_8032 ph) by (destruct ph; reflexivity). rewrite DM.
  rewrite (C104_reduce _ (sha_len _) (sha_bytes _)), ell_L. fold (challenge sha ph R pk msg).
  set (k := challenge sha ph R pk msg). assert (Lk : le (to_le 32 k) = k) by apply le_L.
  set (chk := psub Rp (dsm (to_le 32 k) A s)).
  assert (EQ : eqG (pt chk) (add (pt Rp) (neg (pt (dsm (to_le 32 k) A s))))) by apply PS.
  assert (ED : eqG (pt (dsm (to_le 32 k) A s)) (add (smul k (pt A)) (smul (le s) B))).
  { rewrite <- Lk at 2. apply D; try assumption; try apply to_le_length; try apply to_le_bytes. rewrite Lk. apply mod_L. }
  assert (CONG : forall P Q, eqG P Q -> eqG (neg P) (neg Q)).
  { destruct g. intros P Q X. eapply g_trans; [apply g_sym, g_zero|].
    eapply g_trans; [apply g_add; [apply g_refl|apply g_sym, (g_neg Q)]|].
    eapply g_trans; [apply g_assoc|]. eapply g_trans; [apply g_add; [|apply g_refl]|].
    + eapply g_trans; [apply g_add; [apply g_refl|apply g_sym, X]|]. eapply g_trans; [apply g_comm|apply g_neg].
    + eapply g_trans; [apply g_comm|apply g_zero]. }
  assert (EC : eqG (pt chk) (add (pt Rp) (neg (add (smul k (neg (pt A0))) (smul (le s) B))))).
  { destruct g. eapply g_trans; [exact EQ|]. apply g_add; [apply g_refl|]. apply CONG. eapply g_trans; [exact ED|].
    apply g_add; [apply g_smul, Np|apply g_refl]. }
  assert (GD : le s < L8032 /\ le pk mod 2 ^ 255 < 2 ^ 255 - 19 /\
     (exists P, Some A0 = Some P /\ ~ eqG (smul 8 (pt P)) zero) /\ (exists P, Some Rp = Some P /\ ~ eqG (smul 8 (pt P)) zero)).
  { split; [exact S1|]. split; [exact S2|]. split.
    - exists A0. split; [reflexivity|]. intros X. apply SA in X. lia.
    - exists Rp. split; [reflexivity|]. intros X. apply SR in X. lia. }
  destruct (S01 chk) as [XC|XC]; rewrite XC; [change ((0 - 1) mod 4294967296 =? 0) with false|change ((1 - 1) mod 4294967296 =? 0) with true]; cbv iota.
  - exists (-74). split; [reflexivity|]. split; [auto|]. split; [split; [intros _; exact GD|intros _; discriminate]|].
    intros _. exists Rp, A0, chk. split; [reflexivity|]. split; [reflexivity|]. split; [exact EC|]. split; [discriminate|lia].
  - exists 0. split; [reflexivity|]. split; [auto|]. split; [split; [intros _; exact GD|intros _; discriminate]|].
    intros _. exists Rp, A0, chk. split; [reflexivity|]. split; [reflexivity|]. split; [exact EC|]. tauto.
Qed.

(** Every signature made with a generated key is accepted, unless the nonce is
    0 modulo the group order. *)
Theorem C105_complete : forall sig ph msg seed, length seed = 32%nat -> Forall byteZ seed ->
  nonce8032 sha ph seed msg <> 0 ->
  exists s, sign (Some sig) ph msg (Some (seed ++ public_key sha encB seed)) None None = Some (0, Some s) /\
    verify (Some s) ph msg (Some (public_key sha encB seed)) None = Some 0.
Proof using C sha_len sha_bytes.
  intros sig ph msg seed Ls Hs NZ. set (pk := public_key sha encB seed).
  assert (TB : forall n, length (encB n) = 32%nat /\ Forall byteZ (encB n) /\ le (encB n) mod 2 ^ 255 < 2 ^ 255 - 19)
    by (intros n; apply (c_tob _ _ _ _ _ _ _ _ _ _ _ _ _ _ _ _ C)).
  destruct (TB (secret_scalar sha seed)) as (Lp & Hp & Cp). fold (public_key sha encB seed) in Lp, Hp, Cp. fold pk in Lp, Hp, Cp.
  exists (sign8032 sha encB ph seed pk msg). split; [apply C105_sign; assumption|].
  unfold sign8032. set (r := nonce8032 sha ph seed msg) in *. set (a := secret_scalar sha seed).
  set (k := challenge sha ph (encB r) pk msg). set (S := (r + k * a) mod L8032).
  assert (Rr : 0 <= r < L8032) by apply mod_L.
  destruct (TB r) as (LR & HR & CR).
  assert (LS : le (to_le 32 S) = S) by apply le_L.
  destruct (C105_verify_exact (encB r) (to_le 32 S) ph msg pk LR HR (to_le_length _ _) (to_le_bytes _ _) Lp Hp) as (ret & E & _ & N22 & K).
  rewrite E.
  assert (PB : forall n, 0 <= n < 2 ^ 255 -> exists Q, fromb (encB n) = Some Q /\ eqG (pt Q) (smul n B)).
  { intros n Hn. destruct C as [g O SB T TE FT _ _ _ _ _ _]. destruct g. unfold encB.
    destruct (FT (smb (to_le 32 n))) as (Q & E1 & E2). exists Q. split; [exact E1|]. eapply g_trans; [exact E2|].
    assert (Ln : le (to_le 32 n) = n) by (apply le_to_le; assert (2 ^ 255 < 256 ^ Z.of_nat 32) by reflexivity; lia).
    rewrite <- Ln at 2. apply SB; [apply to_le_length|apply to_le_bytes|lia]. }
  destruct (scalar_range (firstn 32 (sha seed))) as (Ra & m & Em). fold (secret_scalar sha seed) in Ra, Em. fold a in Ra, Em.
  destruct (PB a ltac:(assert (0 < 2 ^ 254) by reflexivity; lia)) as (A & EA & QA).
  change (encB a) with pk in EA.
  destruct (PB r ltac:(assert (L8032 < 2 ^ 255) by reflexivity; lia)) as (Rp & ER & QR).
  destruct C as [g O _ _ _ _ N D PS S01 SF SZ].
  assert (NS : forall n Q, eqG (pt Q) (smul n B) -> eqG (smul 8 (pt Q)) zero -> (L8032 | n)).
  { destruct g. intros n Q X Y. apply (Gauss L8032 8 n); [|exact gcd8]. apply O.
    eapply g_trans; [apply g_smul_mul|]. eapply g_trans; [apply g_smul, g_sym, X|exact Y]. }
  assert (G22 : ret <> -22).
  { apply N22. rewrite LS. split; [apply mod_L|]. split; [exact Cp|]. split.
    - exists A. split; [exact EA|]. intros X. pose proof (NS a A QA X) as [q Hq].
      assert (Q8 : (8 | q)).
      { apply (Gauss 8 L8032 q); [exists m; rewrite Z.mul_comm, <- Hq, Em; ring|apply rel_prime_sym, gcd8]. }
      destruct Q8 as [t Ht]. subst q. rewrite Hq in Ra.
      assert (T0 : t <= 0 \/ 1 <= t) by lia. assert (P1 : 0 < 2 ^ 254) by reflexivity. assert (P2 : 2 ^ 255 <= 8 * L8032) by (intro Y; discriminate Y).
      pose proof L_pos. nia.
    - exists Rp. split; [exact ER|]. intros X. pose proof (NS r Rp QR X) as [q Hq]. apply NZ. pose proof L_pos as LP.
      clear - Hq Rr LP. clearbody r. generalize dependent L8032. intros l Hq Rr LP. assert (q = 0) by nia. subst q. lia. }
  destruct (K G22) as (Rp' & A' & chk & E1 & E2 & E3 & E4). rewrite EA in E2. rewrite ER in E1. injection E1 as <-. injection E2 as <-.
  apply f_equal. apply E4. apply SZ. rewrite LS in E3. fold k in E3.
  destruct g.
  assert (NEGK : forall n P Q, eqG (add P Q) zero -> eqG (add (smul n P) (smul n Q)) zero).
  { intros n P Q X. eapply g_trans; [apply g_sym, g_smul_dist|]. eapply g_trans; [apply g_smul, X|].
    eapply g_trans; [apply g_smul, g_sym, (g_smul_0 zero)|]. eapply g_trans; [apply g_sym, g_smul_mul|]. rewrite Z.mul_0_r. apply g_smul_0. }
  assert (CANC : forall P Q T, eqG (add P T) (add Q T) -> eqG P Q).
  { intros P Q T X. eapply g_trans; [apply g_sym, g_zero|]. eapply g_trans; [apply g_add; [apply g_refl|apply g_sym, (g_neg T)]|].
    eapply g_trans; [apply g_assoc|]. eapply g_trans; [apply g_add; [exact X|apply g_refl]|].
    eapply g_trans; [apply g_sym, g_assoc|]. eapply g_trans; [apply g_add; [apply g_refl|apply g_neg]|apply g_zero]. }
  assert (SB : eqG (smul S B) (smul (r + k * a) B)).
  { unfold S. pose proof (Z.div_mod (r + k * a) L8032 ltac:(pose proof L_pos; lia)) as DMD.
    set (q := (r + k * a) / L8032) in *. set (rm := (r + k * a) mod L8032) in *. rewrite DMD.
    apply g_sym. eapply g_trans; [apply g_smul_add|]. eapply g_trans; [apply g_add; [|apply g_refl]|].
    - apply O. exists q. apply Z.mul_comm.
    - eapply g_trans; [apply g_comm|apply g_zero]. }
  (* R = [k](-A) + [S]B *)
  assert (RE : eqG (pt Rp) (add (smul k (neg (pt A))) (smul S B))).
  { apply (CANC _ _ (smul k (pt A))). apply g_sym.
    eapply g_trans; [apply g_add; [apply g_comm|apply g_refl]|]. eapply g_trans; [apply g_sym, g_assoc|].
    eapply g_trans; [apply g_add; [apply g_refl|apply NEGK; eapply g_trans; [apply g_comm|apply g_neg]]|].
    eapply g_trans; [apply g_zero|]. eapply g_trans; [exact SB|]. eapply g_trans; [apply g_smul_add|].
    apply g_add; [apply g_sym, QR|]. eapply g_trans; [apply g_smul_mul|]. apply g_smul, g_sym, QA. }
  eapply g_trans; [exact E3|]. eapply g_trans; [apply g_add; [exact RE|apply g_refl]|apply g_neg].
Qed.
End Props.
Print Assumptions C105_keypair.
Print Assumptions C105_sign.
Print Assumptions C105_sign_any.
Print Assumptions C105_verify_exact.
Print Assumptions C105_complete.

(** ** the assumptions can be met: the integers modulo the group order *)
Definition toy_eq (a b : Z) : Prop := (L8032 | a - b).
Definition toy_tob (P : Z) : list Z := to_le 32 (P mod L8032).
Definition toy_small (P : Z) : Z := if (8 * P) mod L8032 =? 0 then 1 else 0.
Definition toy_sha (m : list Z) : list Z := to_le 64 (Z.of_nat (length m) + 1).
Lemma toy_curve : curve Z Z (fun P => P) toy_eq Z.add Z.opp 0 Z.mul 1 le toy_tob (fun s => Some (le s)) (fun s => Some (- le s))
  toy_small (fun h A s => le h * A + le s) Z.sub.
Proof.
  assert (RM : forall P, toy_eq (P mod L8032) P).
  { intros P. pose proof (Z.div_mod P L8032 ltac:(discriminate)) as E. exists (- (P / L8032)). lia. }
  assert (SM : forall P, toy_small P = 1 <-> (L8032 | 8 * P)).
  { intros P. unfold toy_small. destruct (Z.eqb_spec ((8 * P) mod L8032) 0) as [E|E].
    - split; [intros _; apply Z.mod_divide; [discriminate|exact E]|reflexivity].
    - split; [discriminate|]. intros X. exfalso. apply E, Z.mod_divide; [discriminate|exact X]. }
  constructor.
  - constructor; unfold toy_eq.
    + intros P. rewrite Z.sub_diag. apply Z.divide_0_r.
    + intros P Q [k H]. exists (- k). lia.
    + intros P Q T [k H] [l K]. exists (k + l). lia.
    + intros P P' Q Q' [k H] [l K]. exists (k + l). lia.
    + intros P Q. exists 0. lia.
    + intros P Q T. exists 0. lia.
    + intros P. exists 0. lia.
    + intros P. exists 0. lia.
    + intros n P P' [k H]. exists (n * k). rewrite <- Z.mul_sub_distr_l, H. ring.
    + intros P. exists 0. lia.
    + intros P. exists 0. lia.
    + intros m n P. exists 0. ring.
    + intros m n P. exists 0. ring.
    + intros n P Q. exists 0. ring.
  - intros n. unfold toy_eq. now rewrite Z.mul_1_r, Z.sub_0_r.
  - intros s _ _ _. exists 0. ring.
  - intros P. unfold toy_tob. split; [apply to_le_length|]. split; [apply to_le_bytes|]. rewrite le_L.
    pose proof (mod_L P). assert (L8032 < 2 ^ 255 - 19) by reflexivity. rewrite Z.mod_small; lia.
  - intros P Q [k H]. unfold toy_tob. assert (P = Q + k * L8032) as -> by lia. now rewrite Z.mod_add by discriminate.
  - intros P. eexists. split; [reflexivity|]. unfold toy_tob. rewrite le_L. apply RM.
  - intros s. exists 0. ring.
  - intros h A s _ _ _ _ _ _. exists 0. ring.
  - intros P Q. exists 0. ring.
  - intros P. unfold toy_small. destruct (_ =? 0); auto.
  - intros s P _. rewrite SM. unfold toy_eq. now rewrite Z.sub_0_r.
  - intros P [k H]. apply SM. exists (8 * k). lia.
Qed.

Definition toy_seed : list Z := repeat 1 32.
Example C105_ex : curve Z Z (fun P => P) toy_eq Z.add Z.opp 0 Z.mul 1 le toy_tob (fun s => Some (le s)) (fun s => Some (- le s))
    toy_small (fun h A s => le h * A + le s) Z.sub /\
  (forall m, length (toy_sha m) = 64%nat) /\ (forall m, Forall byteZ (toy_sha m)) /\
  length toy_seed = 32%nat /\ Forall byteZ toy_seed /\ nonce8032 toy_sha false toy_seed [1; 2; 3] = 36 /\
  nonce8032 toy_sha true toy_seed [1; 2; 3] = 70.
Proof.
  split; [exact toy_curve|]. split; [intros; apply to_le_length|]. split; [intros; apply to_le_bytes|].
  split; [reflexivity|]. split; [|split; reflexivity].
  repeat constructor; unfold byteZ; lia.
Qed.
(** and a wrong S is refused with -EBADMSG *)
Example C105_ex_bad : verify Z (fun s => Some (le s)) (fun s => Some (- le s)) toy_small (fun h A s => le h * A + le s) Z.sub toy_sha
    (Some (to_le 32 5 ++ to_le 32 7)) false [1] (Some (to_le 32 9)) None = Some (-74) /\
  verify Z (fun s => Some (le s)) (fun s => Some (- le s)) toy_small (fun h A s => le h * A + le s) Z.sub toy_sha
    (Some (to_le 32 5 ++ to_le 32 (L8032 + 7))) false [1] (Some (to_le 32 9)) None = Some (-22).
Proof. split; vm_compute; reflexivity. Qed.
