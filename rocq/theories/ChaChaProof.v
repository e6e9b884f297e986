(** ChaCha20 against RFC 8439. *)
From Verif Require Import Bytes Words AesModel AesProof ModesSpec ModesModel ModesProof.

Lemma add32_mod : forall x y, add32 x y = (x + y) mod 2 ^ 32.
Proof. intros. apply t32_mod. Qed.

(** What four words of the state are, the others being those of [s]. *)
Definition quad (s : list Z) (a b c d : nat) (x y z w : Z) (t : list Z) : Prop :=
  length t = length s /\ get t a = x /\ get t b = y /\ get t c = z /\ get t d = w /\
  forall i, i <> a -> i <> b -> i <> c -> i <> d -> get t i = get s i.
Section Quad.
  Variables (s : list Z) (a b c d : nat).
  Hypotheses (Na : (a < length s)%nat) (Nb : (b < length s)%nat) (Nc : (c < length s)%nat) (Nd : (d < length s)%nat).
  Hypotheses (ab : a <> b) (ac : a <> c) (ad : a <> d) (bc : b <> c) (bd : b <> d) (cd : c <> d).
  Notation Q := (quad s a b c d).
  Ltac go := intros (L&A&B&C&D&O); unfold quad; rewrite length_upd; split; [exact L|];
    rewrite ?get_upd_same by lia; rewrite ?get_upd_other by auto;
    repeat (split; [assumption || reflexivity|]); intros i Ia Ib Ic Id; rewrite get_upd_other by auto; auto.
  Lemma q_a : forall v x y z w t, Q x y z w t -> Q v y z w (upd t a v). Proof. intros v x y z w t. go. Qed.
  Lemma q_b : forall v x y z w t, Q x y z w t -> Q x v z w (upd t b v). Proof. intros v x y z w t. go. Qed.
  Lemma q_c : forall v x y z w t, Q x y z w t -> Q x y v w (upd t c v). Proof. intros v x y z w t. go. Qed.
  Lemma q_d : forall v x y z w t, Q x y z w t -> Q x y z v (upd t d v). Proof. intros v x y z w t. go. Qed.
  Lemma s_a : forall x y z w t, Q x y z w t -> Q (add32 x y) y z w (upd t a (add32 (get t a) (get t b))).
  Proof. intros x y z w t H. pose proof H as (_&A&B&_). rewrite A, B. apply (q_a _ x), H. Qed.
  Lemma s_c : forall x y z w t, Q x y z w t -> Q x y (add32 z w) w (upd t c (add32 (get t c) (get t d))).
  Proof. intros x y z w t H. pose proof H as (_&_&_&A&B&_). rewrite A, B. apply (q_c _ _ _ z), H. Qed.
  Lemma s_d : forall n x y z w t, Q x y z w t -> Q x y z (rol32 (Z.lxor w x) n) (upd t d (rol32 (Z.lxor (get t d) (get t a)) n)).
  Proof. intros n x y z w t H. pose proof H as (_&A&_&_&B&_). rewrite A, B. apply (q_d _ _ _ _ w), H. Qed.
  Lemma s_b : forall n x y z w t, Q x y z w t -> Q x (rol32 (Z.lxor y z) n) z w (upd t b (rol32 (Z.lxor (get t b) (get t c)) n)).
  Proof. intros n x y z w t H. pose proof H as (_&_&A&B&_). rewrite A, B. apply (q_b _ _ y), H. Qed.
  Lemma q_eq : forall x y z w t u, Q x y z w t -> Q x y z w u -> t = u.
  Proof.
    intros x y z w t u (L1&A1&B1&C1&D1&O1) (L2&A2&B2&C2&D2&O2). apply (nth_ext _ _ 0 0); [lia|]. intros i _.
    change (get t i = get u i).
    destruct (Nat.eq_dec i a) as [->|]; [congruence|]. destruct (Nat.eq_dec i b) as [->|]; [congruence|].
    destruct (Nat.eq_dec i c) as [->|]; [congruence|]. destruct (Nat.eq_dec i d) as [->|]; [congruence|].
    rewrite O1, O2 by auto. reflexivity.
  Qed.
  Lemma qround_eq : qround s a b c d = QR s a b c d.
  Proof.
    assert (H0 : Q (get s a) (get s b) (get s c) (get s d) s) by (repeat split).
    assert (G : forall x y z w t, Q x y z w t ->
      let ws := upd t a (add32 (get t a) (get t b)) in
      let ws := upd ws d (rol32 (Z.lxor (get ws d) (get ws a)) 16) in
      let ws := upd ws c (add32 (get ws c) (get ws d)) in
      let ws := upd ws b (rol32 (Z.lxor (get ws b) (get ws c)) 12) in
      let ws := upd ws a (add32 (get ws a) (get ws b)) in
      let ws := upd ws d (rol32 (Z.lxor (get ws d) (get ws a)) 8) in
      let ws := upd ws c (add32 (get ws c) (get ws d)) in
      let x' := add32 x y in let w' := rol32 (Z.lxor w x') 16 in
      let z' := add32 z w' in let y' := rol32 (Z.lxor y z') 12 in
      let x'' := add32 x' y' in let w'' := rol32 (Z.lxor w' x'') 8 in
      let z'' := add32 z' w'' in let y'' := rol32 (Z.lxor y' z'') 7 in
      Q x'' y'' z'' w'' (upd ws b (rol32 (Z.lxor (get ws b) (get ws c)) 7))).
    { intros x y z w t H. intros. apply s_b, s_c, s_d, s_a, s_b, s_c, s_d, s_a, H. }
    specialize (G _ _ _ _ _ H0). apply (q_eq _ _ _ _ _ _ G). unfold QR, QUARTERROUND. rewrite <- !add32_mod.
    apply (q_d _ _ _ _ (get s d)), (q_c _ _ _ (get s c)), (q_b _ _ (get s b)), (q_a _ (get s a)), H0.
  Qed.
End Quad.

Lemma QR_len : forall s a b c d, length (QR s a b c d) = length s.
Proof. intros. unfold QR. destruct (QUARTERROUND _ _ _ _) as [[[x y] z] w]. rewrite !length_upd. reflexivity. Qed.
Lemma qround_len : forall s a b c d, length (qround s a b c d) = length s.
Proof. intros. unfold qround. rewrite !length_upd. reflexivity. Qed.
Lemma double_round_eq : forall s, length s = 16%nat -> cc20_double_round s = inner_block s.
Proof.
  intros s H. unfold cc20_double_round, inner_block.
  rewrite !qround_eq by (rewrite ?QR_len, ?qround_len, ?H; lia).
  reflexivity.
Qed.
Lemma inner_len : forall s, length (inner_block s) = length s.
Proof. intros. unfold inner_block. rewrite !QR_len. reflexivity. Qed.
Lemma iter_round_eq : forall n s, length s = 16%nat ->
  Nat.iter n cc20_double_round s = Nat.iter n inner_block s /\ length (Nat.iter n inner_block s) = 16%nat.
Proof.
  induction n as [|n IH]; intros s H; [split; [reflexivity|exact H]|].
  destruct (IH s H) as [I1 I2].
  change (Nat.iter (S n) cc20_double_round s) with (cc20_double_round (Nat.iter n cc20_double_round s)).
  change (Nat.iter (S n) inner_block s) with (inner_block (Nat.iter n inner_block s)).
  rewrite I1, double_round_eq by exact I2. split; [reflexivity|]. rewrite inner_len. exact I2.
Qed.

Lemma CC20_len : forall key c nonce, length (CC20_state key c nonce) = 16%nat.
Proof. reflexivity. Qed.
Lemma cc20_block_spec : forall key c nonce,
  cc20_block (CC20_state key c nonce) = (chacha20_block key c nonce, CC20_state key ((c + 1) mod 2 ^ 32) nonce).
Proof.
  intros key c nonce. unfold cc20_block, chacha20_block.
  rewrite (proj1 (iter_round_eq 10 _ (CC20_len key c nonce))). f_equal.
  - apply flat_map_ext. intros i. rewrite add32_mod. reflexivity.
  - rewrite add32_mod. reflexivity.
Qed.
Lemma chacha20_block_len : forall key c nonce, length (chacha20_block key c nonce) = 64%nat.
Proof.
  intros. unfold chacha20_block. cbn [seq flat_map]. rewrite !app_length, !length_le_bytes. reflexivity.
Qed.
Local Opaque chacha20_block cc20_block.
Definition cc_blk (key : list Z) (c : Z) (nonce : list Z) (j : nat) : list Z :=
  chacha20_block key ((c + Z.of_nat j) mod 2 ^ 32) nonce.
Lemma P64 : (0 < 64)%nat. Proof. lia. Qed.
Lemma cc_blk_len : forall key c nonce j, length (cc_blk key c nonce j) = 64%nat.
Proof. intros. apply chacha20_block_len. Qed.

Definition nblk64 (n : nat) : nat := ((n + 63) / 64)%nat.
Lemma nblk64_step : forall n, (0 < n)%nat -> nblk64 n = S (nblk64 (n - Nat.min n 64)).
Proof.
  intros n Hn. unfold nblk64. destruct (Nat.le_gt_cases 64 n) as [C|C].
  - replace (Nat.min n 64) with 64%nat by lia. replace (n + 63)%nat with ((n - 64 + 63) + 1 * 64)%nat by lia.
    rewrite Nat.div_add by lia. lia.
  - replace (n - Nat.min n 64)%nat with 0%nat by lia. change ((0 + 63) / 64)%nat with 0%nat.
    symmetry. apply (Nat.div_unique _ 64 1 (n - 1)); lia.
Qed.
Lemma cc20_loop_spec : forall f key c nonce data, 0 <= c < 2 ^ 32 -> (length data <= f)%nat ->
  cc20_loop f (CC20_state key c nonce) data
  = (gloop 64 f (cc_blk key c nonce) data, CC20_state key ((c + Z.of_nat (nblk64 (length data))) mod 2 ^ 32) nonce).
Proof.
  induction f as [|f IH]; intros key c nonce data Hc Hf.
  - destruct data; [|cbn in Hf; lia]. cbn [cc20_loop gloop length nblk64]. change (nblk64 0) with 0%nat.
    rewrite Z.add_0_r, Z.mod_small by exact Hc. reflexivity.
  - destruct data as [|x data'].
    { change (nblk64 (length (@nil Z))) with 0%nat. rewrite Z.add_0_r, Z.mod_small by exact Hc. reflexivity. }
    set (data := x :: data') in *.
    assert (Hd : (0 < length data)%nat) by (unfold data; cbn; lia).
    set (todo := Nat.min (length data) 64).
    transitivity (let '(ks, st) := cc20_block (CC20_state key c nonce) in
         let '(r, st') := cc20_loop f st (skipn todo data) in
         (xorl (firstn todo data) (firstn todo ks) ++ r, st')); [reflexivity|].
    transitivity (xorl (firstn todo data) (firstn todo (cc_blk key c nonce O))
         ++ gloop 64 f (fun j => cc_blk key c nonce (S j)) (skipn todo data),
       CC20_state key ((c + Z.of_nat (nblk64 (length data))) mod 2 ^ 32) nonce); [|reflexivity].
    clearbody data. rewrite cc20_block_spec.
    assert (Hs : (length (skipn todo data) <= f)%nat) by (rewrite skipn_length; unfold todo; lia).
    rewrite IH by (first [apply Z.mod_pos_bound; reflexivity | exact Hs]).
    apply f_equal2.
    + apply f_equal2.
      * apply f_equal. apply f_equal. unfold cc_blk. rewrite Z.add_0_r, (Z.mod_small c) by exact Hc. reflexivity.
      * rewrite (gloop_spec 64 P64 f (cc_blk key ((c + 1) mod 2 ^ 32) nonce) _ (cc_blk_len _ _ _) Hs).
        rewrite (gloop_spec 64 P64 f (fun j => cc_blk key c nonce (S j)) _ (fun j => cc_blk_len _ _ _ (S j)) Hs).
        apply f_equal. apply f_equal. apply flat_map_ext. intros j. unfold cc_blk.
        replace (((c + 1) mod 2 ^ 32 + Z.of_nat j) mod 2 ^ 32) with ((c + Z.of_nat (S j)) mod 2 ^ 32); [reflexivity|].
        rewrite Zplus_mod_idemp_l. f_equal. lia.
    + replace (((c + 1) mod 2 ^ 32 + Z.of_nat (nblk64 (length (skipn todo data)))) mod 2 ^ 32)
        with ((c + Z.of_nat (nblk64 (length data))) mod 2 ^ 32); [reflexivity|].
      rewrite Zplus_mod_idemp_l. f_equal. rewrite skipn_length. rewrite (nblk64_step (length data) Hd). fold todo. lia.
Qed.
Lemma cc20_crypt_spec : forall key c nonce data, 0 <= c < 2 ^ 32 ->
  cc20_crypt (CC20_state key c nonce) data
  = (CHACHA20 key c nonce data, CC20_state key ((c + Z.of_nat (nblk64 (length data))) mod 2 ^ 32) nonce).
Proof.
  intros key c nonce data Hc. unfold cc20_crypt. rewrite cc20_loop_spec by (first [exact Hc | apply le_n]).
  rewrite (gloop_spec 64 P64 _ _ _ (cc_blk_len _ _ _) (le_n _)). reflexivity.
Qed.
Lemma CHACHA20_cut : forall key c nonce a b k, length a = (k * 64)%nat ->
  CHACHA20 key c nonce (a ++ b) = CHACHA20 key c nonce a ++ CHACHA20 key ((c + Z.of_nat k) mod 2 ^ 32) nonce b.
Proof.
  intros key c nonce a b k Ha. unfold CHACHA20, chacha20_stream.
  pose proof (stream_cut 64 P64 (cc_blk key c nonce) a b k (length (a ++ b)) (cc_blk_len _ _ _) Ha (le_n _)) as S.
  unfold cc_blk in S. rewrite S. apply f_equal. apply f_equal. apply f_equal. apply flat_map_ext. intros j.
  replace ((c + Z.of_nat (k + j)) mod 2 ^ 32) with (((c + Z.of_nat k) mod 2 ^ 32 + Z.of_nat j) mod 2 ^ 32); [reflexivity|].
  rewrite Zplus_mod_idemp_l. f_equal. lia.
Qed.
Fixpoint cc20_run (st : cc20) (chunks : list (list Z)) : list Z :=
  match chunks with
  | [] => []
  | d :: r => let '(o, st) := cc20_crypt st d in o ++ cc20_run st r
  end.
Lemma cc20_run_spec : forall chunks lst key c nonce, 0 <= c < 2 ^ 32 ->
  Forall (fun d => exists k, length d = (k * 64)%nat) chunks ->
  cc20_run (CC20_state key c nonce) (chunks ++ [lst]) = CHACHA20 key c nonce (concat chunks ++ lst).
Proof.
  induction chunks as [|d ch IH]; intros lst key c nonce Hc H; cbn [app cc20_run concat].
  - rewrite cc20_crypt_spec by exact Hc. apply app_nil_r.
  - inversion H as [|? ? [k Hk] H']; subst. rewrite cc20_crypt_spec by exact Hc.
    rewrite <- app_assoc, (CHACHA20_cut _ _ _ _ _ k Hk). apply f_equal.
    rewrite IH by (first [assumption | apply Z.mod_pos_bound; reflexivity]).
    replace (nblk64 (length d)) with k; [reflexivity|]. unfold nblk64. rewrite Hk. apply (Nat.div_unique _ 64 k 63); lia.
Qed.
Lemma CHACHA20_invol : forall key c nonce data, CHACHA20 key c nonce (CHACHA20 key c nonce data) = data.
Proof.
  intros key c nonce data. unfold CHACHA20 at 1 2.
  assert (L : forall n, (n <= length (chacha20_stream key c nonce n))%nat).
  { intros n. unfold chacha20_stream. pose proof (stream_len 64 P64 n (cc_blk key c nonce) (cc_blk_len _ _ _)) as S. unfold cc_blk in S. lia. }
  assert (L2 : length (xorl data (firstn (length data) (chacha20_stream key c nonce (length data)))) = length data).
  { rewrite length_xorl, firstn_length. specialize (L (length data)). lia. }
  rewrite L2. apply xorl_cancel. rewrite firstn_length. specialize (L (length data)). lia.
Qed.
(** init, setkey, setiv on any memory *)
Lemma cc20_setup : forall st key nonce st1 st2, length st = 16%nat ->
  cc20_setkey (cc20_init st) key = Some st1 -> cc20_setiv st1 nonce = Some st2 ->
  st2 = CC20_state key 1 nonce.
Proof.
  intros st key nonce st1 st2 H K V. unfold cc20_setkey in K. destruct (length key =? 32)%nat; [|discriminate K].
  injection K as <-. unfold cc20_setiv in V. destruct (length nonce =? 12)%nat; [|discriminate V]. injection V as <-.
  d16 st H. reflexivity.
Qed.
