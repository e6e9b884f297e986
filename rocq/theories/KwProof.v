(** AES key wrap against RFC 3394. *)
From Verif Require Import Bytes Words AesModel ModesSpec ModesModel ModesProof.

Definition semis (P : list (list Z)) : Prop := Forall (fun b => length b = 8%nat /\ bytes b) P.
Lemma semis_len : forall P, semis P -> length (concat P) = (8 * length P)%nat.
Proof. induction 1 as [|b P [Hb _] H IH]; cbn [concat length]; [reflexivity|]. rewrite app_length. lia. Qed.
Lemma semis_slice : forall P k, semis P -> (k < length P)%nat -> slice (concat P) (8 * k) 8 = nth k P [].
Proof.
  intros P k H. revert k. induction H as [|x P [Hl Hb] Hw IH]; intros k Hk; [cbn in Hk; lia|].
  cbn [concat]. destruct k as [|k]; unfold slice.
  - cbn [nth Nat.mul skipn]. rewrite <- Hl. apply firstn_length_app.
  - cbn [nth]. rewrite <- IH by (cbn in Hk; lia). unfold slice. f_equal.
    rewrite skipn_app_r by lia. f_equal. lia.
Qed.
Lemma map_nth_seq : forall (P : list (list Z)), map (fun i => nth i P []) (seq 0 (length P)) = P.
Proof.
  induction P as [|x P IH]; [reflexivity|]. cbn [length seq map nth]. f_equal. rewrite <- seq_shift, map_map. exact IH.
Qed.
Lemma semiblocks_concat : forall P, semis P -> semiblocks (concat P) = P.
Proof.
  intros P H. unfold semiblocks. rewrite (semis_len P H).
  replace (8 * length P / 8)%nat with (length P) by (rewrite Nat.mul_comm, Nat.div_mul; lia).
  transitivity (map (fun i => nth i P []) (seq 0 (length P))); [|apply map_nth_seq]. apply map_ext_in. intros k Hk. apply in_seq in Hk. apply semis_slice; [exact H|lia].
Qed.

Lemma u64_be : forall t, be_bytes 8 (u64 t) = be_bytes 8 t.
Proof.
  intros. unfold be_bytes. f_equal. unfold u64. change (2 ^ 64) with (256 ^ Z.of_nat 8). apply le_bytes_mod.
Qed.
Lemma u64_add : forall t a, u64 (u64 t + a) = u64 (t + a).
Proof. intros. unfold u64. apply Zplus_mod_idemp_l. Qed.
Lemma u64_sub1 : forall t a, u64 (u64 t - a) = u64 (t - a).
Proof. intros. unfold u64. apply Zminus_mod_idemp_l. Qed.

Lemma set_nth_app : forall pre r rs x, set_nth (pre ++ r :: rs) (length pre) x = pre ++ x :: rs.
Proof.
  intros. unfold set_nth. rewrite firstn_length_app. f_equal. cbn [app]. f_equal.
  rewrite skipn_app_r by lia. replace (S (length pre) - length pre)%nat with 1%nat by lia. reflexivity.
Qed.
Lemma nth_mid : forall (pre : list (list Z)) r rs, nth (length pre) (pre ++ r :: rs) [] = r.
Proof. intros. rewrite app_nth2 by lia. rewrite Nat.sub_diag. reflexivity. Qed.

Lemma iter_succ_r : forall (A : Type) m (f : A -> A) x, Nat.iter (S m) f x = Nat.iter m f (f x).
Proof. intros A m f x. induction m as [|m IH]; [reflexivity|]. change (f (Nat.iter (S m) f x) = f (Nat.iter m f (f x))). rewrite IH. reflexivity. Qed.

Section KW.
  Variables (E D : list Z -> list Z).

  (** One pass of the wrapping loop. *)
  Lemma wrap_pass : forall n j rs pre A,
    fold_left (wrap_step E n) (map (fun i => (j, i)) (seq (S (length pre)) (length rs))) (A, pre ++ rs)
    = (let '(A', _, r) := kw_enc_pass E A (u64 (Z.of_nat (n * j + S (length pre)))) rs in (A', pre ++ r)).
  Proof.
    intros n j. induction rs as [|R rs IH]; intros pre A; [reflexivity|].
    cbn [length seq map fold_left kw_enc_pass]. unfold wrap_step at 2.
    rewrite Nat.sub_succ, Nat.sub_0_r, nth_mid, set_nth_app.
    set (b := E (A ++ R)).
    replace (pre ++ skipn 8 b :: rs) with ((pre ++ [skipn 8 b]) ++ rs) by (rewrite <- app_assoc; reflexivity).
    replace (S (S (length pre))) with (S (length (pre ++ [skipn 8 b]))) at 1 by (rewrite app_length; cbn [length]; lia).
    rewrite IH. rewrite u64_be. rewrite u64_add.
    replace (Z.of_nat (n * j + S (length (pre ++ [skipn 8 b])))) with (Z.of_nat (n * j + S (length pre)) + 1)
      by (rewrite app_length; cbn [length]; lia).
    destruct (kw_enc_pass E (xorl (firstn 8 b) (be_bytes 8 (Z.of_nat (n * j + S (length pre)))))
      (u64 (Z.of_nat (n * j + S (length pre)) + 1)) rs) as [[A' t'] r].
    rewrite <- app_assoc. reflexivity.
  Qed.
  Lemma enc_pass_t : forall rs A t, let '(_, t', r) := kw_enc_pass E A (u64 t) rs in
    t' = u64 (t + Z.of_nat (length rs)) /\ length r = length rs.
  Proof.
    induction rs as [|R rs IH]; intros A t; cbn [kw_enc_pass length].
    - rewrite Z.add_0_r. auto.
    - rewrite u64_add. set (b := E (A ++ R)).
      specialize (IH (xorl (firstn 8 b) (be_bytes 8 (u64 t))) (t + 1)).
      destruct (kw_enc_pass E (xorl (firstn 8 b) (be_bytes 8 (u64 t))) (u64 (t + 1)) rs) as [[A' t'] r].
      destruct IH as [-> L]. split; [f_equal; lia|cbn [length]; lia].
  Qed.
  Lemma wrap_passes : forall m n j A rs, length rs = n ->
    fold_left (wrap_step E n) (flat_map (fun j => map (fun i => (j, i)) (seq 1 n)) (seq j m)) (A, rs)
    = (let '(A', _, r) := Nat.iter m (kw_enc_body E) (A, u64 (Z.of_nat (n * j + 1)), rs) in (A', r)).
  Proof.
    induction m as [|m IH]; intros n j A rs Hn; [reflexivity|].
    cbn [seq flat_map]. rewrite fold_left_app.
    pose proof (wrap_pass n j rs [] A) as P. cbn [length app] in P. rewrite Hn in P. rewrite P. clear P.
    rewrite iter_succ_r. unfold kw_enc_body at 2.
    pose proof (enc_pass_t rs A (Z.of_nat (n * j + 1))) as T.
    destruct (kw_enc_pass E A (u64 (Z.of_nat (n * j + 1))) rs) as [[A' t'] r]. destruct T as [-> L].
    rewrite IH by lia. replace (Z.of_nat (n * S j + 1)) with (Z.of_nat (n * j + 1) + Z.of_nat (length rs)) by nia.
    reflexivity.
  Qed.
  Lemma kw_encrypt_spec : forall tag P out, semis P -> (2 <= length P)%nat ->
    exists A, lc_aes_kw_encrypt E tag (concat P) out = Some (KW_wrap E P, A).
  Proof.
    intros tag P out HP Hn. unfold lc_aes_kw_encrypt, mode_kw_encrypt, KW_wrap, kw_steps.
    rewrite (semis_len P HP). rewrite semiblocks_concat by exact HP.
    replace (8 * length P <? 16)%nat with false by (symmetry; apply Nat.ltb_ge; lia).
    replace (8 * length P mod 8 =? 0)%nat with true by (symmetry; apply Nat.eqb_eq; rewrite Nat.mul_comm; apply Nat.mod_mul; lia).
    pose proof (wrap_passes 6 (length P) 0 KW_IV P eq_refl) as W.
    replace (u64 (Z.of_nat (length P * 0 + 1))) with 1 in W by (rewrite Nat.mul_0_r; reflexivity).
    change (repeat 166 8) with KW_IV. rewrite W.
    destruct (Nat.iter 6 (kw_enc_body E) (KW_IV, 1, P)) as [[A t] r]. exists A. reflexivity.
  Qed.

  (** Unwrapping. *)
  Lemma unwrap_pass : forall n j rs suf A,
    fold_left (unwrap_step D n) (map (fun i => (j, i)) (rev (seq 1 (length rs)))) (A, rev rs ++ suf)
    = (let '(A', _, r) := kw_dec_pass D A (u64 (Z.of_nat (n * j + length rs))) rs in (A', rev r ++ suf)).
  Proof.
    intros n j. induction rs as [|R rs IH]; intros suf A; [reflexivity|].
    cbn [length]. rewrite seq_S, rev_app_distr. cbn [rev app map fold_left kw_dec_pass].
    unfold unwrap_step at 2. replace (1 + length rs - 1)%nat with (length (rev rs)) by (rewrite rev_length; lia).
    rewrite <- app_assoc. cbn [app]. rewrite nth_mid, set_nth_app. rewrite u64_be.
    replace (n * j + (1 + length rs))%nat with (n * j + S (length rs))%nat by lia.
    set (b := D (xorl A (be_bytes 8 (Z.of_nat (n * j + S (length rs)))) ++ R)).
    rewrite IH. rewrite u64_sub1.
    replace (Z.of_nat (n * j + S (length rs)) - 1) with (Z.of_nat (n * j + length rs)) by lia.
    destruct (kw_dec_pass D (firstn 8 b) (u64 (Z.of_nat (n * j + length rs))) rs) as [[A' t'] r].
    cbn [rev]. rewrite <- app_assoc. reflexivity.
  Qed.
  Lemma dec_pass_t : forall rs A t, let '(_, t', r) := kw_dec_pass D A (u64 t) rs in
    t' = u64 (t - Z.of_nat (length rs)) /\ length r = length rs.
  Proof.
    induction rs as [|R rs IH]; intros A t; cbn [kw_dec_pass length].
    - rewrite Z.sub_0_r. auto.
    - rewrite u64_sub1. set (b := D (xorl A (be_bytes 8 (u64 t)) ++ R)).
      specialize (IH (firstn 8 b) (t - 1)).
      destruct (kw_dec_pass D (firstn 8 b) (u64 (t - 1)) rs) as [[A' t'] r].
      destruct IH as [-> L]. split; [f_equal; lia|cbn [length]; lia].
  Qed.
  Lemma unwrap_passes : forall m n A rs, length rs = n ->
    fold_left (unwrap_step D n) (flat_map (fun j => map (fun i => (j, i)) (rev (seq 1 n))) (rev (seq 0 m))) (A, rev rs)
    = (let '(A', _, r) := Nat.iter m (kw_dec_body D) (A, u64 (Z.of_nat (n * m)), rs) in (A', rev r)).
  Proof.
    induction m as [|m IH]; intros n A rs Hn; [reflexivity|].
    rewrite seq_S, rev_app_distr. cbn [rev app flat_map Nat.add]. rewrite fold_left_app.
    pose proof (unwrap_pass n m rs [] A) as P. rewrite !app_nil_r in P. rewrite Hn in P. rewrite P. clear P.
    rewrite iter_succ_r. unfold kw_dec_body at 2.
    replace (n * m + n)%nat with (n * S m)%nat by lia.
    pose proof (dec_pass_t rs A (Z.of_nat (n * S m))) as T.
    destruct (kw_dec_pass D A (u64 (Z.of_nat (n * S m))) rs) as [[A' t'] r]. destruct T as [-> L].
    rewrite app_nil_r. rewrite IH by lia.
    replace (Z.of_nat (n * S m) - Z.of_nat (length rs)) with (Z.of_nat (n * m)) by nia.
    reflexivity.
  Qed.
  Lemma rev_steps : forall n, rev (kw_steps n) = flat_map (fun j => map (fun i => (j, i)) (rev (seq 1 n))) (rev (seq 0 6)).
  Proof.
    intros n. unfold kw_steps. cbn [seq flat_map rev app]. rewrite !rev_app_distr, <- !map_rev, !app_nil_r, <- !app_assoc.
    reflexivity.
  Qed.
  Lemma kw_decrypt_spec : forall A C out, length A = 8%nat -> semis C -> (2 <= length C)%nat ->
    lc_aes_kw_decrypt D (A ++ concat C) out
    = (let '(A', R) := KW_unwrap D A C in
       Some (if leq A' KW_IV then 0 else - EBADMSG, concat R, A')).
  Proof.
    intros A C out HA HC Hn. unfold lc_aes_kw_decrypt.
    replace (length (A ++ concat C) <? 8)%nat with false by (symmetry; apply Nat.ltb_ge; rewrite app_length; lia).
    replace (firstn 8 (A ++ concat C)) with A by (rewrite <- HA; symmetry; apply firstn_length_app).
    replace (skipn 8 (A ++ concat C)) with (concat C) by (rewrite <- HA; symmetry; apply skipn_length_app).
    unfold mode_kw_decrypt. rewrite (semis_len C HC). rewrite semiblocks_concat by exact HC.
    replace (8 * length C <? 16)%nat with false by (symmetry; apply Nat.ltb_ge; lia).
    replace (8 * length C mod 8 =? 0)%nat with true by (symmetry; apply Nat.eqb_eq; rewrite Nat.mul_comm; apply Nat.mod_mul; lia).
    replace (8 * length C / 8)%nat with (length C) by (rewrite Nat.mul_comm, Nat.div_mul; lia).
    unfold KW_unwrap. rewrite rev_steps.
    pose proof (unwrap_passes 6 (length C) A (rev C) ltac:(apply rev_length)) as U. rewrite rev_involutive in U.
    rewrite U. replace (Z.of_nat (length C * 6)) with (6 * Z.of_nat (length C)) by lia.
    destruct (Nat.iter 6 (kw_dec_body D) (A, u64 (6 * Z.of_nat (length C)), rev C)) as [[A' t] r]. reflexivity.
  Qed.

  (** ** Round trip *)
  Hypothesis LE : forall b, length b = 16%nat -> bytes b -> length (E b) = 16%nat /\ bytes (E b).
  Hypothesis LD : forall b, length b = 16%nat -> bytes b -> length (D b) = 16%nat /\ bytes (D b).
  Hypothesis DE : forall b, length b = 16%nat -> bytes b -> D (E b) = b.
  Hypothesis ED : forall b, length b = 16%nat -> bytes b -> E (D b) = b.

  Definition kwst (n : nat) (s : list Z * list (list Z)) : Prop :=
    length (fst s) = 8%nat /\ bytes (fst s) /\ semis (snd s) /\ length (snd s) = n.
  Lemma split_mid : forall (R : list (list Z)) k, (k < length R)%nat -> exists pre r suf, R = pre ++ r :: suf /\ length pre = k.
  Proof.
    intros R k Hk. exists (firstn k R), (nth k R []), (skipn (S k) R). split.
    - rewrite <- (firstn_skipn k R) at 1. f_equal. clear - Hk. revert R Hk.
      induction k as [|k IH]; intros [|x R] H; cbn in H; try lia; [reflexivity|]. cbn [skipn nth]. apply IH. lia.
    - rewrite firstn_length. lia.
  Qed.
  Lemma bytes_app_inv : forall a b, bytes (a ++ b) -> bytes a /\ bytes b.
  Proof. intros a b H. apply Forall_app in H. exact H. Qed.
  Lemma kwst_mid : forall n A pre r suf, kwst n (A, pre ++ r :: suf) ->
    length A = 8%nat /\ bytes A /\ length r = 8%nat /\ bytes r /\ semis pre /\ semis suf.
  Proof.
    intros n A pre r suf (H1&H2&H3&_). cbn [fst snd] in *. unfold semis in H3. apply Forall_app in H3.
    destruct H3 as [H3 H4]. inversion H4 as [|? ? [Hr Br] Hs]; subst.
    split; [exact H1|]. split; [exact H2|]. split; [exact Hr|]. split; [exact Br|]. split; [exact H3|exact Hs].
  Qed.
  Lemma halves : forall b, length b = 16%nat -> bytes b ->
    length (firstn 8 b) = 8%nat /\ bytes (firstn 8 b) /\ length (skipn 8 b) = 8%nat /\ bytes (skipn 8 b).
  Proof.
    intros b L B. split; [rewrite firstn_length; lia|]. split; [apply bytes_firstn, B|].
    split; [rewrite skipn_length; lia|apply bytes_skipn, B].
  Qed.
  Lemma kwst_set : forall n A A' pre r r' suf, kwst n (A, pre ++ r :: suf) ->
    length A' = 8%nat -> bytes A' -> length r' = 8%nat -> bytes r' -> kwst n (A', pre ++ r' :: suf).
  Proof.
    intros n A A' pre r r' suf H L1 B1 L2 B2. pose proof (kwst_mid _ _ _ _ _ H) as (_&_&_&_&P&S).
    destruct H as (_&_&_&H4). cbn [fst snd] in *. unfold kwst. cbn [fst snd].
    split; [exact L1|]. split; [exact B1|]. split.
    - apply Forall_app. split; [exact P|]. constructor; [split; assumption|exact S].
    - rewrite app_length in *. cbn [length] in *. exact H4.
  Qed.
  Lemma wrap_inv : forall n s j i, kwst n s -> (1 <= i <= n)%nat ->
    kwst n (wrap_step E n s (j, i)) /\ unwrap_step D n (wrap_step E n s (j, i)) (j, i) = s.
  Proof.
    intros n [A R] j i H Hi. assert (HR : length R = n) by apply H.
    destruct (split_mid R (i - 1) ltac:(lia)) as (pre&r&suf&->&Lp).
    unfold wrap_step, unwrap_step. rewrite <- Lp. repeat rewrite ?nth_mid, ?set_nth_app.
    pose proof (kwst_mid _ _ _ _ _ H) as (LA&BA&Lr&Br&_&_).
    destruct (LE (A ++ r)) as [Lb Bb]; [rewrite app_length; lia|apply bytes_app; assumption|].
    destruct (halves _ Lb Bb) as (L1&B1&L2&B2). set (b := E (A ++ r)) in *. split.
    - apply (kwst_set n A _ pre r _ suf H); [rewrite length_xorl, length_be_bytes; lia| |exact L2|exact B2].
      apply bytes_xorl; [exact B1|apply bytes_be_bytes].
    - rewrite xorl_cancel by (rewrite length_be_bytes; lia). rewrite firstn_skipn. unfold b.
      rewrite DE by (rewrite ?app_length; first [lia | apply bytes_app; assumption]).
      f_equal; [rewrite <- LA; apply firstn_length_app|]. f_equal. f_equal. rewrite <- LA. apply skipn_length_app.
  Qed.
  Lemma unwrap_inv : forall n s j i, kwst n s -> (1 <= i <= n)%nat ->
    kwst n (unwrap_step D n s (j, i)) /\ wrap_step E n (unwrap_step D n s (j, i)) (j, i) = s.
  Proof.
    intros n [A R] j i H Hi. assert (HR : length R = n) by apply H.
    destruct (split_mid R (i - 1) ltac:(lia)) as (pre&r&suf&->&Lp).
    unfold wrap_step, unwrap_step. rewrite <- Lp. repeat rewrite ?nth_mid, ?set_nth_app.
    pose proof (kwst_mid _ _ _ _ _ H) as (LA&BA&Lr&Br&_&_).
    set (A1 := xorl A (be_bytes 8 (Z.of_nat (n * j + i)))).
    assert (LA1 : length A1 = 8%nat) by (unfold A1; rewrite length_xorl, length_be_bytes; lia).
    assert (BA1 : bytes A1) by (apply bytes_xorl; [exact BA|apply bytes_be_bytes]).
    destruct (LD (A1 ++ r)) as [Lb Bb]; [rewrite app_length; lia|apply bytes_app; assumption|].
    destruct (halves _ Lb Bb) as (L1&B1&L2&B2). set (b := D (A1 ++ r)) in *. split.
    - apply (kwst_set n A _ pre r _ suf H); assumption.
    - rewrite firstn_skipn. unfold b.
      rewrite ED by (rewrite ?app_length; first [lia | apply bytes_app; assumption]).
      replace (firstn 8 (A1 ++ r)) with A1 by (rewrite <- LA1; symmetry; apply firstn_length_app).
      replace (skipn 8 (A1 ++ r)) with r by (rewrite <- LA1; symmetry; apply skipn_length_app).
      unfold A1. rewrite xorl_cancel by (rewrite length_be_bytes; lia). reflexivity.
  Qed.
  Lemma fold_inv : forall n f g, 
    (forall s j i, kwst n s -> (1 <= i <= n)%nat -> kwst n (f s (j, i)) /\ g (f s (j, i)) (j, i) = s) ->
    forall l, Forall (fun ji : nat * nat => (1 <= snd ji <= n)%nat) l -> forall s, kwst n s ->
    kwst n (fold_left f l s) /\ fold_left g (rev l) (fold_left f l s) = s.
  Proof.
    intros n f g H. induction 1 as [|[j i] l Hx Hl IH]; intros s Hs; [split; [exact Hs|reflexivity]|].
    cbn [fold_left rev]. destruct (H s j i Hs Hx) as [K1 K2]. destruct (IH _ K1) as [I1 I2].
    split; [exact I1|]. rewrite fold_left_app, I2. cbn [fold_left]. exact K2.
  Qed.
  Lemma kw_steps_range : forall n, Forall (fun ji : nat * nat => (1 <= snd ji <= n)%nat) (kw_steps n).
  Proof.
    intros n. rewrite Forall_forall. intros [j i] Hin. unfold kw_steps in Hin. apply in_flat_map in Hin.
    destruct Hin as (j'&_&Hin). apply in_map_iff in Hin. destruct Hin as (i'&Heq&Hin). injection Heq as _ <-.
    apply in_seq in Hin. cbn [snd]. lia.
  Qed.
  Lemma kwst_iv : forall P, semis P -> kwst (length P) (KW_IV, P).
  Proof.
    intros P HP. unfold kwst. cbn [fst snd]. split; [reflexivity|]. split; [|split; [exact HP|reflexivity]].
    unfold KW_IV, bytes. cbn [repeat]. repeat constructor; lia.
  Qed.
  Lemma unwrap_wrap : forall P, semis P -> exists A C, KW_wrap E P = A ++ concat C /\
    length A = 8%nat /\ semis C /\ length C = length P /\ KW_unwrap D A C = (KW_IV, P).
  Proof.
    intros P HP. unfold KW_wrap, KW_unwrap.
    destruct (fold_inv (length P) (wrap_step E (length P)) (unwrap_step D (length P)) (wrap_inv (length P))
      (kw_steps (length P)) (kw_steps_range _) (KW_IV, P) (kwst_iv P HP)) as [K I].
    destruct (fold_left (wrap_step E (length P)) (kw_steps (length P)) (KW_IV, P)) as [A C].
    destruct K as (K1&_&K3&K4). cbn [fst snd] in *. exists A, C. rewrite K4.
    split; [reflexivity|]. split; [exact K1|]. split; [exact K3|]. split; [reflexivity|exact I].
  Qed.
  Lemma wrap_unwrap : forall A C R, length A = 8%nat -> bytes A -> semis C -> KW_unwrap D A C = (KW_IV, R) ->
    semis R /\ length R = length C /\ KW_wrap E R = A ++ concat C.
  Proof.
    intros A C R LA BA HC HU. unfold KW_unwrap in HU.
    assert (K0 : kwst (length C) (A, C)) by (unfold kwst; cbn [fst snd]; auto).
    destruct (fold_inv (length C) (unwrap_step D (length C)) (wrap_step E (length C)) (unwrap_inv (length C))
      (rev (kw_steps (length C))) (Forall_rev (kw_steps_range _)) (A, C) K0) as [K I].
    rewrite HU in K, I. rewrite rev_involutive in I. destruct K as (_&_&K3&K4). cbn [fst snd] in *.
    split; [exact K3|]. split; [exact K4|]. unfold KW_wrap. rewrite K4, I. reflexivity.
  Qed.
End KW.
