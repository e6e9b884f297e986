(** Rejection sampling of ML-DSA over any byte stream, and the same with SHAKE. *)
From Verif Require Import Sha3Top Bytes Words ZUtil KeccakModel Sha3Model SpongeSpec Fips202 KeccakBytes Sha3Proof HashIface DrbgProof KyberSample UtilModel KyberModel DilithiumModel DilithiumSpec.
Require Import Lia.
Import ListNotations.

(** ** the acceptance tests *)
Lemma cand3 : forall b0 b1 b2, byte b0 -> byte b1 -> byte b2 -> Z.land (Z.lor (Z.lor b0 (Z.shiftl b1 8)) (Z.shiftl b2 16)) 8388607 = 65536 * (b2 mod 128) + 256 * b1 + b0.
Proof.
  intros b0 b1 b2 H0 H1 H2. unfold byte in *. rewrite !Z.shiftl_mul_pow2 by lia.
  replace (Z.lor b0 (b1 * 2 ^ 8)) with (b1 * 2 ^ 8 + b0) by (rewrite Z.lor_comm; symmetry; apply (lor_mul_pow2 b1 b0 8); cbn; lia).
  replace (Z.lor (b1 * 2 ^ 8 + b0) (b2 * 2 ^ 16)) with (b2 * 2 ^ 16 + (b1 * 2 ^ 8 + b0)) by (rewrite Z.lor_comm; symmetry; apply (lor_mul_pow2 b2 (b1 * 2 ^ 8 + b0) 16); cbn; lia).
  change 8388607 with (Z.ones 23). rewrite Z.land_ones by lia.
  pose proof (Z.div_mod b2 128 ltac:(lia)) as E. pose proof (Z.mod_pos_bound b2 128 ltac:(lia)). set (r := b2 mod 128) in *. set (k := b2 / 128) in *. clearbody r k.
  symmetry. apply (Z.mod_unique _ _ k); [left|]; lia.
Qed.
Lemma drej_uniform_ok : forall n len buf, (length buf <= n)%nat -> bytes buf -> d_rej_uniform len buf = firstn len (accept3 buf).
Proof.
  induction n; intros len buf L H.
  - destruct buf; [|cbn in L; lia]. destruct len; reflexivity.
  - destruct len as [|len]. destruct buf; reflexivity.
    destruct buf as [|b0 [|b1 [|b2 buf]]]; try reflexivity. cbn [length] in L.
    pose proof (Forall_inv H) as H0. apply Forall_inv_tail in H. pose proof (Forall_inv H) as H1. apply Forall_inv_tail in H.
    pose proof (Forall_inv H) as H2. apply Forall_inv_tail in H.
    cbn [d_rej_uniform]. cbv zeta. rewrite cand3 by auto. unfold accept3. cbn [three_bytes filter].
    fold (accept3 buf). change DQ with dq. destruct (_ <? dq).
    + cbn [firstn]. rewrite IHn by (auto; lia). reflexivity.
    + apply IHn; auto; lia.
Qed.
Lemma accept3_app : forall n a b, length a = (3 * n)%nat -> accept3 (a ++ b) = accept3 a ++ accept3 b.
Proof.
  intros n a b L. unfold accept3. rewrite <- filter_app. apply f_equal. revert a L. induction n; intros a L. destruct a; [reflexivity|cbn in L; lia].
  destruct a as [|a0 [|a1 [|a2 a]]]; cbn [length] in L; try lia. cbn [app three_bytes]. rewrite IHn by lia. reflexivity.
Qed.
(** a list is its whole groups of three and a rest of length mod 3 *)
Lemma accept3_short : forall a, (length a < 3)%nat -> accept3 a = [].
Proof. intros [|a0 [|a1 [|a2 a]]] H; cbn in H; try lia; reflexivity. Qed.
Lemma accept3_rest : forall u r, let off := (length u mod 3)%nat in
  accept3 (u ++ r) = accept3 u ++ accept3 (skipn (length u - off) u ++ r).
Proof.
  intros u r off. pose proof (Nat.mod_upper_bound (length u) 3 ltac:(lia)) as Hm. pose proof (Nat.div_mod (length u) 3 ltac:(lia)) as Hd. fold off in Hm, Hd.
  set (t := (length u / 3)%nat) in *.
  assert (L : length (firstn (length u - off) u) = (3 * t)%nat) by (rewrite firstn_length_le; lia).
  assert (E : u = firstn (length u - off) u ++ skipn (length u - off) u) by (symmetry; apply firstn_skipn).
  assert (Lb : (length (skipn (length u - off) u) < 3)%nat) by (rewrite skipn_length; lia).
  set (A := firstn (length u - off) u) in *. set (B := skipn (length u - off) u) in *. clearbody A B.
  transitivity (accept3 A ++ accept3 (B ++ r)).
  - rewrite E, <- app_assoc. apply (accept3_app t); auto.
  - apply f_equal2; auto. rewrite E, (accept3_app t) by auto. rewrite (accept3_short B), app_nil_r by auto. reflexivity.
Qed.
Lemma accept3_mono : forall a b, exists t, accept3 (a ++ b) = accept3 a ++ t.
Proof. intros. rewrite accept3_rest. eauto. Qed.

Lemma eta_nib_ok : forall eta t, In eta [2; 4] -> 0 <= t < 16 -> d_eta_nib eta t = CoeffFromHalfByte eta t.
Proof.
  intros eta t He Ht. assert (T : In t (map Z.of_nat (seq 0 16))) by (apply in_map_iff; exists (Z.to_nat t); split; [lia|apply in_seq; lia]).
  destruct He as [<-|[<-|[]]]; cbn in T; repeat (destruct T as [<-|T]; [reflexivity|]); destruct T.
Qed.
Definition opt (o : option Z) : list Z := match o with Some v => [v] | None => [] end.
Lemma somes_opt : forall l, somes l = flat_map opt l.
Proof. induction l as [|[x|] l IH]; cbn; auto; rewrite IH; auto. Qed.
Lemma accept_eta_cons : forall eta b B, accept_eta eta (b :: B) = opt (CoeffFromHalfByte eta (b mod 16)) ++ opt (CoeffFromHalfByte eta (b / 16)) ++ accept_eta eta B.
Proof. intros. unfold accept_eta. rewrite !somes_opt. unfold halves. cbn [flat_map app map]. reflexivity. Qed.
Lemma accept_eta_app : forall eta a b, accept_eta eta (a ++ b) = accept_eta eta a ++ accept_eta eta b.
Proof. intros. unfold accept_eta, halves. rewrite flat_map_app, map_app, !somes_opt, flat_map_app. reflexivity. Qed.
Lemma firstn_opt : forall n o (l : list Z), (0 < n)%nat -> firstn n (opt o ++ l) = opt o ++ firstn (n - length (opt o)) l.
Proof. intros [|n] [v|] l H; cbn [opt app firstn length]; try lia; auto. rewrite Nat.sub_succ, Nat.sub_0_r. reflexivity. Qed.
Lemma drej_eta_ok : forall eta buf len, In eta [2; 4] -> bytes buf -> d_rej_eta eta len buf = firstn len (accept_eta eta buf).
Proof.
  intros eta buf. induction buf as [|b buf IH]; intros len He H.
  - destruct len; reflexivity.
  - destruct len as [|len]; [reflexivity|]. pose proof (Forall_inv H) as Hb. apply Forall_inv_tail in H. unfold byte in Hb.
    cbn [d_rej_eta]. cbv zeta. rewrite accept_eta_cons.
    change (Z.land b 15) with (Z.land b (Z.ones 4)). rewrite Z.land_ones, Z.shiftr_div_pow2 by lia. change (2 ^ 4) with 16.
    assert (0 <= b mod 16 < 16) by (apply Z.mod_pos_bound; lia). assert (0 <= b / 16 < 16) by (split; [apply Z.div_pos|apply Z.div_lt_upper_bound]; lia).
    rewrite !eta_nib_ok by auto. fold (opt (CoeffFromHalfByte eta (b mod 16))).
    rewrite firstn_opt by lia. set (o0 := opt (CoeffFromHalfByte eta (b mod 16))). apply f_equal.
    remember (S len - length o0)%nat as len1.
    destruct (CoeffFromHalfByte eta (b / 16)) as [v|]; cbn [opt].
    + destruct len1; cbn [Nat.ltb Nat.leb app length firstn]. rewrite Nat.sub_0_r. rewrite IH by auto. destruct buf; reflexivity.
      rewrite IH, Nat.sub_succ, Nat.sub_0_r by auto. reflexivity.
    + cbn [app length]. rewrite Nat.sub_0_r. apply IH; auto.
Qed.

(** ** streams *)
Definition shift (n : nat) (st : nat -> Z) : nat -> Z := fun i => st (n + i)%nat.
Definition take (n : nat) (st : nat -> Z) : list Z := map st (seq 0 n).
Lemma length_take : forall n st, length (take n st) = n.
Proof. intros. unfold take. rewrite map_length. apply seq_length. Qed.
Lemma take_add : forall a b st, take (a + b) st = take a st ++ take b (shift a st).
Proof.
  intros. unfold take. rewrite seq_app, map_app. apply f_equal. cbn [Nat.add].
  rewrite <- (Nat.add_0_r a) at 1. change (seq (a + 0) b) with (seq (a + 0) b). clear. generalize 0%nat. induction b; intro k; [reflexivity|].
  cbn [seq map]. apply f_equal2. reflexivity. replace (S (a + k)) with (a + S k)%nat by lia. apply IHb.
Qed.
Lemma bytes_take : forall n st, (forall i, byte (st i)) -> bytes (take n st).
Proof. intros n st H. apply Forall_forall. intros x Hx. apply in_map_iff in Hx. destruct Hx as (i & <- & _). apply H. Qed.
Lemma firstn_take : forall a n st, (a <= n)%nat -> firstn a (take n st) = take a st.
Proof. intros. replace n with (a + (n - a))%nat by lia. rewrite take_add. rewrite <- (length_take a st) at 1. apply firstn_length_app. Qed.
Lemma take_ext : forall n st st', (forall i, (i < n)%nat -> st i = st' i) -> take n st = take n st'.
Proof. intros n st st' H. apply map_ext_in. intros i Hi. apply in_seq in Hi. apply H. lia. Qed.

(** the first 256 accepted candidates of a stream *)
Definition first256 (cand : list Z -> list Z) (st : nat -> Z) (a : list Z) : Prop :=
  length a = 256%nat /\ exists n, firstn 256 (cand (take n st)) = a.

(** the bytes of every block of [n] bytes after the first [i] of which only the first [u] are used, left out *)
Definition skipping (i n u : nat) (st : nat -> Z) : nat -> Z :=
  fun p => if (p <? i)%nat then st p else st (i + n * ((p - i) / u) + (p - i) mod u)%nat.
Fixpoint usedb (n u : nat) (j : nat) (st : nat -> Z) : list Z :=
  match j with O => [] | S j' => take u st ++ usedb n u j' (shift n st) end.
Lemma usedb_take : forall n u j st, (0 < u)%nat -> usedb n u j st = take (u * j) (skipping 0 n u st).
Proof.
  intros n u. induction j; intros st Hu; cbn [usedb]. rewrite Nat.mul_0_r. reflexivity.
  replace (u * S j)%nat with (u + u * j)%nat by lia. rewrite take_add, IHj by auto. apply f_equal2; apply take_ext; intros i Hi; unfold skipping, shift; cbn [Nat.ltb Nat.leb].
  - rewrite !Nat.sub_0_r. rewrite Nat.div_small, Nat.mod_small by auto. f_equal. lia.
  - rewrite !Nat.sub_0_r. change (u + i <? 0)%nat with false. cbv iota. replace (u + i)%nat with (i + 1 * u)%nat by lia. rewrite Nat.div_add, Nat.mod_add by lia. f_equal. lia.
Qed.
Lemma skipping_take : forall i n u j st, (0 < u)%nat -> take (i + u * j) (skipping i n u st) = take i st ++ usedb n u j (shift i st).
Proof.
  intros i n u j st Hu. rewrite take_add, usedb_take by auto. apply f_equal2; apply take_ext; intros p Hp; unfold skipping, shift.
  - replace (p <? i)%nat with true by (symmetry; apply Nat.ltb_lt; auto). reflexivity.
  - replace (i + p <? i)%nat with false by (symmetry; apply Nat.ltb_ge; lia). cbn [Nat.ltb Nat.leb]. rewrite Nat.sub_0_r. replace (i + p - i)%nat with p by lia. f_equal. lia.
Qed.

Section Reader.
  Variable St : Type.
  Variable rd : St -> nat -> list Z * St.
  (** s delivers the stream st *)
  Variable R : St -> (nat -> Z) -> Prop.
  Hypothesis R_rd : forall s st n, R s st -> fst (rd s n) = take n st /\ R (snd (rd s n)) (shift n st).
  Hypothesis R_bytes : forall s st, R s st -> forall i, byte (st i).

  Lemma used_step : forall st used, bytes used -> (forall i, byte (st i)) ->
    let off := (length used mod 3)%nat in
    let used' := firstn (32 + off) (skipn (length used - off) used ++ take 168 st) in
    used' = skipn (length used - off) used ++ take 32 st /\ bytes used'.
  Proof.
    intros st used B Bs off used'. pose proof (Nat.mod_upper_bound (length used) 3 ltac:(lia)) as Hm. fold off in Hm.
    pose proof (Nat.mod_le (length used) 3 ltac:(lia)) as Hl. fold off in Hl.
    assert (L : length (skipn (length used - off) used) = off) by (rewrite skipn_length; lia).
    assert (E : used' = skipn (length used - off) used ++ take 32 st).
    { unfold used'. rewrite firstn_app, L. rewrite firstn_all2 by lia. replace (32 + off - off)%nat with 32%nat by lia. rewrite firstn_take by lia. reflexivity. }
    split; auto. rewrite E. apply Forall_app. split; [|apply bytes_take; auto]. unfold bytes in B. rewrite <- (firstn_skipn (length used - off) used) in B. apply Forall_app in B. tauto.
  Qed.
  Lemma uniform_loop_sound : forall fuel s st used acc a, R s st -> bytes used -> (length acc <= 256)%nat ->
    uniform_loop St rd fuel s used acc = Some a ->
    exists j, a = firstn 256 (acc ++ accept3 (skipn (length used - length used mod 3) used ++ usedb 168 32 j st)) /\ length a = 256%nat.
  Proof.
    induction fuel; intros s st used acc a HR B La H; cbn [uniform_loop] in H; destruct (Nat.ltb_spec (length acc) 256).
    - discriminate.
    - assert (acc = a) by congruence. subst a. exists 0%nat. rewrite firstn_app. replace (256 - length acc)%nat with 0%nat by lia. rewrite firstn_O, app_nil_r, firstn_all2 by lia. split; [reflexivity|lia].
    - destruct (R_rd s st 168 HR) as [E1 HR']. destruct (rd s 168) as [o s'] eqn:E. cbn [fst snd] in *. subst o.
      cbv zeta in H. destruct (used_step st used B (R_bytes s st HR)) as [U Bu]. cbv zeta in U, Bu.
      rewrite (drej_uniform_ok (length (firstn (32 + length used mod 3) (skipn (length used - length used mod 3) used ++ take 168 st)))) in H by auto.
      set (used' := firstn _ _) in *.
      apply (IHfuel s' (shift 168 st)) in H; auto. 2: rewrite app_length, firstn_length; lia.
      destruct H as (j & Ea & L). exists (S j). split; auto. rewrite Ea. cbn [usedb]. rewrite app_assoc, <- U. rewrite (accept3_rest used').
      assert (X : acc ++ firstn (256 - length acc) (accept3 used') = firstn 256 (acc ++ accept3 used')) by (rewrite firstn_app, (firstn_all2 acc) by lia; reflexivity).
      rewrite X, firstn_absorb, <- app_assoc. reflexivity.
    - assert (acc = a) by congruence. subst a. exists 0%nat. rewrite firstn_app. replace (256 - length acc)%nat with 0%nat by lia. rewrite firstn_O, app_nil_r, firstn_all2 by lia. split; [reflexivity|lia].
  Qed.
  Lemma uniform_loop_complete : forall fuel s st used acc j, R s st -> bytes used -> (length acc <= 256)%nat -> (j <= fuel)%nat ->
    (256 <= length (acc ++ accept3 (skipn (length used - length used mod 3) used ++ usedb 168 32 j st)))%nat ->
    exists a, uniform_loop St rd fuel s used acc = Some a.
  Proof.
    induction fuel; intros s st used acc j HR B La Hj H; cbn [uniform_loop]; destruct (Nat.ltb_spec (length acc) 256); eauto.
    - exfalso. assert (j = 0%nat) by lia. subst j. cbn [usedb] in H. rewrite app_nil_r, accept3_short, app_nil_r in H by (rewrite skipn_length; pose proof (Nat.mod_upper_bound (length used) 3); lia). lia.
    - destruct j as [|j]. { exfalso. cbn [usedb] in H. rewrite app_nil_r, accept3_short, app_nil_r in H by (rewrite skipn_length; pose proof (Nat.mod_upper_bound (length used) 3); lia). lia. }
      destruct (R_rd s st 168 HR) as [E1 HR']. destruct (rd s 168) as [o s'] eqn:E. cbn [fst snd] in *. subst o.
      cbv zeta. destruct (used_step st used B (R_bytes s st HR)) as [U Bu]. cbv zeta in U, Bu.
      rewrite (drej_uniform_ok (length (firstn (32 + length used mod 3) (skipn (length used - length used mod 3) used ++ take 168 st)))) by auto.
      cbn [usedb] in H. rewrite app_assoc, <- U in H. set (used' := firstn (32 + length used mod 3) _) in *. rewrite (accept3_rest used') in H.
      apply (IHfuel s' (shift 168 st) used' _ j); auto; try lia. rewrite app_length, firstn_length; lia.
      rewrite !app_length in H. rewrite !app_length, firstn_length. lia.
  Qed.
  Theorem uniform_from_sound : forall fuel s st a, R s st -> uniform_from St rd fuel s = Some a -> first256 accept3 (skipping 840 168 32 st) a.
  Proof.
    intros fuel s st a HR H. unfold uniform_from in H. destruct (R_rd s st 840 HR) as [E1 HR']. destruct (rd s 840) as [o s'] eqn:E. cbn [fst snd] in *. subst o.
    assert (B : bytes (take 840 st)) by (apply bytes_take, (R_bytes s st HR)). rewrite (drej_uniform_ok 840) in H by (auto; rewrite length_take; lia).
    apply (uniform_loop_sound fuel s' (shift 840 st)) in H; auto; [|rewrite firstn_length; lia]. destruct H as (j & Ea & L). split; auto.
    exists (840 + 32 * j)%nat. rewrite skipping_take by lia. rewrite accept3_rest, Ea, firstn_absorb. reflexivity.
  Qed.
  Lemma first256_det : forall (cand : list Z -> list Z) st, (forall a b, exists t, cand (a ++ b) = cand a ++ t) ->
    forall a a', first256 cand st a -> first256 cand st a' -> a = a'.
  Proof.
    intros cand st M a a' [L [n E]] [L' [n' E']].
    assert (X : forall n n' a a', (n <= n')%nat -> length a = 256%nat -> firstn 256 (cand (take n st)) = a -> firstn 256 (cand (take n' st)) = a' -> a = a').
    { clear - M. intros n n' a a' Hn L E E'. replace n' with (n + (n' - n))%nat in E' by lia. rewrite take_add in E'. destruct (M (take n st) (take (n' - n) (shift n st))) as [t Et]. rewrite Et in E'.
      rewrite <- E in L. rewrite firstn_length in L. rewrite firstn_app in E'. replace (256 - length (cand (take n st)))%nat with 0%nat in E' by lia. rewrite firstn_O, app_nil_r in E'. congruence. }
    destruct (Nat.le_ge_cases n n'); [|symmetry]; eauto.
  Qed.
  Lemma first256_at : forall (cand : list Z -> list Z) st a n0, (forall a b, exists t, cand (a ++ b) = cand a ++ t) -> first256 cand st a ->
    exists n, (n0 <= n)%nat /\ firstn 256 (cand (take n st)) = a.
  Proof.
    intros cand st a n0 M [L [n E]]. exists (n + n0)%nat. split. lia. rewrite take_add. destruct (M (take n st) (take n0 (shift n st))) as [t ->].
    rewrite <- E, firstn_length in L. rewrite firstn_app. replace (256 - length (cand (take n st)))%nat with 0%nat by lia. rewrite firstn_O, app_nil_r. exact E.
  Qed.
  Theorem uniform_from_complete : forall s st a, R s st -> first256 accept3 (skipping 840 168 32 st) a ->
    exists f0, forall fuel, (f0 <= fuel)%nat -> uniform_from St rd fuel s = Some a.
  Proof.
    intros s st a HR F. pose proof F as F'. destruct F' as [L [n E]].
    exists n. intros fuel Hf. assert (exists b, uniform_from St rd fuel s = Some b) as [b Hb].
    { unfold uniform_from. destruct (R_rd s st 840 HR) as [E1 HR']. destruct (rd s 840) as [o s'] eqn:Er. cbn [fst snd] in *. subst o.
      assert (B : bytes (take 840 st)) by (apply bytes_take, (R_bytes s st HR)). rewrite (drej_uniform_ok 840) by (auto; rewrite length_take; lia).
      apply (uniform_loop_complete fuel s' (shift 840 st) _ _ n); auto. rewrite firstn_length; lia.
      rewrite app_length, firstn_length.
      pose proof (accept3_rest (take 840 st) (usedb 168 32 n (shift 840 st))) as X. cbv zeta in X. rewrite <- skipping_take in X by lia.
      assert (Y : exists t, accept3 (take (840 + 32 * n) (skipping 840 168 32 st)) = accept3 (take n (skipping 840 168 32 st)) ++ t).
      { replace (840 + 32 * n)%nat with (n + (840 + 31 * n))%nat by lia. rewrite take_add. apply accept3_mono. }
      destruct Y as [t Y]. rewrite Y in X. apply (f_equal (@length Z)) in X. rewrite !app_length in X.
      rewrite <- E, firstn_length in L. lia. }
    rewrite Hb. f_equal. symmetry. apply (first256_det accept3 (skipping 840 168 32 st) accept3_mono); auto. apply (uniform_from_sound fuel s); auto.
  Qed.

  (** *** eta *)
  Section Eta.
  Variable eta : Z.
  Hypothesis He : In eta [2; 4].
  Let n0 := eta_read eta.
  Lemma n0_ge : (136 <= n0)%nat.
  Proof. unfold n0. destruct He as [<-|[<-|[]]]; cbn; lia. Qed.
  Lemma eta_loop_sound : forall fuel s st acc a, R s st -> (length acc <= 256)%nat -> eta_loop St rd fuel eta n0 s acc = Some a ->
    exists j, a = firstn 256 (acc ++ accept_eta eta (usedb n0 136 j st)) /\ length a = 256%nat.
  Proof.
    pose proof n0_ge as N.
    induction fuel; intros s st acc a HR La H; cbn [eta_loop] in H; destruct (Nat.ltb_spec (length acc) 256).
    - discriminate.
    - assert (acc = a) by congruence. subst a. exists 0%nat. rewrite firstn_app. replace (256 - length acc)%nat with 0%nat by lia. rewrite firstn_O, app_nil_r, firstn_all2 by lia. split; [reflexivity|lia].
    - destruct (R_rd s st n0 HR) as [E1 HR']. destruct (rd s n0) as [o s'] eqn:E. cbn [fst snd] in *. subst o.
      rewrite firstn_take in H by auto. rewrite drej_eta_ok in H by (auto; apply bytes_take, (R_bytes s st HR)).
      apply (IHfuel s' (shift n0 st)) in H; auto. 2: rewrite app_length, firstn_length; lia.
      destruct H as (j & Ea & L). exists (S j). split; auto. rewrite Ea. cbn [usedb]. rewrite accept_eta_app.
      assert (X : acc ++ firstn (256 - length acc) (accept_eta eta (take 136 st)) = firstn 256 (acc ++ accept_eta eta (take 136 st))) by (rewrite firstn_app, (firstn_all2 acc) by lia; reflexivity).
      rewrite X, firstn_absorb, <- app_assoc. reflexivity.
    - assert (acc = a) by congruence. subst a. exists 0%nat. rewrite firstn_app. replace (256 - length acc)%nat with 0%nat by lia. rewrite firstn_O, app_nil_r, firstn_all2 by lia. split; [reflexivity|lia].
  Qed.
  Lemma eta_loop_complete : forall fuel s st acc j, R s st -> (length acc <= 256)%nat -> (j <= fuel)%nat ->
    (256 <= length (acc ++ accept_eta eta (usedb n0 136 j st)))%nat -> exists a, eta_loop St rd fuel eta n0 s acc = Some a.
  Proof.
    pose proof n0_ge as N.
    induction fuel; intros s st acc j HR La Hj H; cbn [eta_loop]; destruct (Nat.ltb_spec (length acc) 256); eauto.
    - exfalso. assert (j = 0%nat) by lia. subst j. cbn [usedb] in H. change (accept_eta eta []) with (@nil Z) in H. rewrite app_nil_r in H. lia.
    - destruct j as [|j]. { exfalso. cbn [usedb] in H. change (accept_eta eta []) with (@nil Z) in H. rewrite app_nil_r in H. lia. }
      destruct (R_rd s st n0 HR) as [E1 HR']. destruct (rd s n0) as [o s'] eqn:E. cbn [fst snd] in *. subst o.
      rewrite firstn_take by auto. rewrite drej_eta_ok by (auto; apply bytes_take, (R_bytes s st HR)).
      cbn [usedb] in H. rewrite accept_eta_app in H. apply (IHfuel s' (shift n0 st) _ j); auto; try lia. rewrite app_length, firstn_length; lia.
      rewrite !app_length in H. rewrite !app_length, firstn_length. lia.
  Qed.
  Lemma accept_eta_mono : forall a b, exists t, accept_eta eta (a ++ b) = accept_eta eta a ++ t.
  Proof. intros. rewrite accept_eta_app. eauto. Qed.
  Theorem eta_from_sound : forall fuel s st a, R s st -> eta_from St rd fuel eta s = Some a -> first256 (accept_eta eta) (skipping n0 n0 136 st) a.
  Proof.
    intros fuel s st a HR H. unfold eta_from in H. fold n0 in H. destruct (R_rd s st n0 HR) as [E1 HR']. destruct (rd s n0) as [o s'] eqn:E. cbn [fst snd] in *. subst o.
    rewrite drej_eta_ok in H by (auto; apply bytes_take, (R_bytes s st HR)).
    apply (eta_loop_sound fuel s' (shift n0 st)) in H; auto; [|rewrite firstn_length; lia]. destruct H as (j & Ea & L). split; auto.
    exists (n0 + 136 * j)%nat. rewrite skipping_take by lia. rewrite accept_eta_app, Ea, firstn_absorb. reflexivity.
  Qed.
  Theorem eta_from_complete : forall s st a, R s st -> first256 (accept_eta eta) (skipping n0 n0 136 st) a ->
    exists f0, forall fuel, (f0 <= fuel)%nat -> eta_from St rd fuel eta s = Some a.
  Proof.
    intros s st a HR F. pose proof F as F'. destruct F' as [L [n E]].
    exists n. intros fuel Hf. assert (exists b, eta_from St rd fuel eta s = Some b) as [b Hb].
    { unfold eta_from. fold n0. destruct (R_rd s st n0 HR) as [E1 HR']. destruct (rd s n0) as [o s'] eqn:Er. cbn [fst snd] in *. subst o.
      rewrite drej_eta_ok by (auto; apply bytes_take, (R_bytes s st HR)).
      apply (eta_loop_complete fuel s' (shift n0 st) _ n); auto. rewrite firstn_length; lia.
      rewrite app_length, firstn_length.
      pose proof (accept_eta_app eta (take n0 st) (usedb n0 136 n (shift n0 st))) as X. rewrite <- skipping_take in X by lia.
      assert (Y : exists t, accept_eta eta (take (n0 + 136 * n) (skipping n0 n0 136 st)) = accept_eta eta (take n (skipping n0 n0 136 st)) ++ t).
      { replace (n0 + 136 * n)%nat with (n + (n0 + 135 * n))%nat by lia. rewrite take_add. apply accept_eta_mono. }
      destruct Y as [t Y]. rewrite Y in X. apply (f_equal (@length Z)) in X. rewrite !app_length in X.
      rewrite <- E, firstn_length in L. lia. }
    rewrite Hb. f_equal. symmetry. apply (first256_det (accept_eta eta) (skipping n0 n0 136 st) accept_eta_mono); auto. apply (eta_from_sound fuel s); auto.
  Qed.
  End Eta.

  (** *** challenge *)
  Definition view (x : list Z * nat * St) (T : nat -> Z) : Prop :=
    let '(buf, pos, s) := x in
    exists st, R s st /\ length buf = 136%nat /\ (pos <= 136)%nat /\ bytes buf /\
    forall i, T i = if (i <? 136 - pos)%nat then nth (pos + i) buf 0 else st (i - (136 - pos))%nat.
  Lemma ch_step : forall i buf pos s T, view (buf, pos, s) T -> exists buf' pos' s', view (buf', pos', s') (shift 1 T) /\
    forall f, ch_byte St rd (S f) i buf pos s = if (i <? Z.to_nat (T 0%nat))%nat then ch_byte St rd f i buf' pos' s' else Some (Z.to_nat (T 0%nat), (buf', pos', s')).
  Proof.
    intros i buf pos s T (st & HR & L & Hp & B & E). destruct (Nat.leb_spec 136 pos) as [Hq|Hq].
    - assert (pos = 136%nat) by lia. subst pos. destruct (R_rd s st 136 HR) as [E1 HR']. destruct (rd s 136) as [o s'] eqn:Er. cbn [fst snd] in *. subst o.
      exists (take 136 st), 1%nat, s'. split.
      + exists (shift 136 st). split; auto. rewrite length_take. repeat split; auto. lia. apply bytes_take, (R_bytes s st HR).
        intro j. unfold shift at 1. rewrite E. change (136 - 136)%nat with 0%nat. change (1 + j <? 0)%nat with false. cbv iota. rewrite Nat.sub_0_r.
        unfold take. destruct (Nat.ltb_spec j (136 - 1)). rewrite nth_map_seq by lia. f_equal; lia. unfold shift. f_equal. lia.
      + intro f. cbn [ch_byte]. change (136 <=? 136)%nat with true. cbv iota. rewrite Er. cbv iota beta.
        replace (nth 0 (take 136 st) 0) with (T 0%nat). reflexivity. rewrite E. change (136 - 136)%nat with 0%nat. cbn [Nat.ltb Nat.leb Nat.sub]. reflexivity.
    - exists buf, (S pos), s. split.
      + exists st. repeat split; auto. intro j. unfold shift. rewrite E.
        destruct (Nat.ltb_spec (1 + j) (136 - pos)), (Nat.ltb_spec j (136 - S pos)); try lia. f_equal; lia. f_equal; lia.
      + intro f. cbn [ch_byte]. replace (136 <=? pos)%nat with false by (symmetry; apply Nat.leb_gt; lia). cbv iota.
        replace (nth pos buf 0) with (T 0%nat). reflexivity. rewrite E. replace (0 <? 136 - pos)%nat with true by (symmetry; apply Nat.ltb_lt; lia). f_equal; lia.
  Qed.
  Lemma take_S : forall n T, take (S n) T = T 0%nat :: take n (shift 1 T).
  Proof. intros. change (S n) with (1 + n)%nat. rewrite take_add. reflexivity. Qed.
  Lemma ball_skip : forall sign tau i b B c, (i < 256)%nat -> ball sign tau i (b :: B) c =
    if (i <? Z.to_nat b)%nat then ball sign tau i B c
    else ball sign tau (S i) B (put (put c i (nth (Z.to_nat b) c 0)) (Z.to_nat b) (if sign (i + tau - 256)%nat then -1 else 1)).
  Proof.
    intros. cbn [ball]. replace (i =? 256)%nat with false by (symmetry; apply Nat.eqb_neq; lia).
    destruct (Z.ltb_spec (Z.of_nat i) b), (Nat.ltb_spec i (Z.to_nat b)); try lia; reflexivity.
  Qed.
  Lemma put_upd : forall c i x, put c i x = upd c i x.
  Proof. induction c; intros [|i] x; cbn [put upd]; [reflexivity|reflexivity|reflexivity|]. apply f_equal. apply IHc. Qed.
  (** the next byte that is at most i is number m of T *)
  Definition next_at (i : nat) (T : nat -> Z) (m : nat) : Prop := (forall j, (j < m)%nat -> (i < Z.to_nat (T j))%nat) /\ (Z.to_nat (T m) <= i)%nat.
  Lemma next_0 : forall i T, (Z.to_nat (T 0%nat) <= i)%nat -> next_at i T 0.
  Proof. intros. split; auto. lia. Qed.
  Lemma next_S : forall i T m, (i < Z.to_nat (T 0%nat))%nat -> next_at i (shift 1 T) m -> next_at i T (S m).
  Proof. intros i T m H [A B]. split; auto. intros [|j] Hj; auto. apply A. lia. Qed.
  Lemma next_inv : forall i T m, next_at i T m -> match m with O => (Z.to_nat (T 0%nat) <= i)%nat | S m' => (i < Z.to_nat (T 0%nat))%nat /\ next_at i (shift 1 T) m' end.
  Proof. intros i T [|m] [A B]; auto. split. apply A; lia. split; auto. intros j Hj. apply (A (S j)). lia. Qed.
  Lemma ball_next : forall sign tau i m T n c, (i < 256)%nat -> next_at i T m ->
    ball sign tau i (take (S m + n) T) c = ball sign tau (S i) (take n (shift (S m) T))
      (put (put c i (nth (Z.to_nat (T m)) c 0)) (Z.to_nat (T m)) (if sign (i + tau - 256)%nat then -1 else 1)).
  Proof.
    intros sign tau i. induction m; intros T n c Hi H; apply next_inv in H.
    - change (1 + n)%nat with (S n). rewrite take_S, ball_skip by auto. replace (i <? Z.to_nat (T 0%nat))%nat with false by (symmetry; apply Nat.ltb_ge; lia). reflexivity.
    - destruct H as [H0 H]. change (S (S m) + n)%nat with (S (S m + n)). rewrite take_S, ball_skip by auto. replace (i <? Z.to_nat (T 0%nat))%nat with true by (symmetry; apply Nat.ltb_lt; lia).
      rewrite IHm by auto. reflexivity.
  Qed.
  Lemma ball_has_next : forall sign tau i n T c r, (i < 256)%nat -> ball sign tau i (take n T) c = Some r -> exists m, (m < n)%nat /\ next_at i T m.
  Proof.
    intros sign tau i. induction n; intros T c r Hi H.
    - cbn in H. replace (i =? 256)%nat with false in H by (symmetry; apply Nat.eqb_neq; lia). discriminate.
    - rewrite take_S, ball_skip in H by auto. destruct (Nat.ltb_spec i (Z.to_nat (T 0%nat))).
      + destruct (IHn _ _ _ Hi H) as (m & Hm & N). exists (S m). split. lia. apply next_S; auto.
      + exists 0%nat. split. lia. apply next_0; auto.
  Qed.
  Lemma ch_byte_sound : forall fuel i buf pos s T b x', view (buf, pos, s) T -> ch_byte St rd fuel i buf pos s = Some (b, x') ->
    exists m, next_at i T m /\ b = Z.to_nat (T m) /\ view x' (shift (S m) T).
  Proof.
    induction fuel; intros i buf pos s T b x' V H. discriminate.
    destruct (ch_step i buf pos s T V) as (buf' & pos' & s' & V' & E). rewrite E in H. destruct (Nat.ltb_spec i (Z.to_nat (T 0%nat))).
    - destruct (IHfuel _ _ _ _ _ _ _ V' H) as (m & N & Hb & V2). exists (S m). split; [apply next_S; auto|]. split; auto.
    - exists 0%nat. assert (b = Z.to_nat (T 0%nat)) by congruence. assert (x' = (buf', pos', s')) by congruence. subst. split; [apply next_0; auto|]. split; auto.
  Qed.
  Lemma ch_byte_complete : forall m fuel i buf pos s T, view (buf, pos, s) T -> next_at i T m -> (m < fuel)%nat ->
    exists x', ch_byte St rd fuel i buf pos s = Some (Z.to_nat (T m), x') /\ view x' (shift (S m) T).
  Proof.
    induction m; intros [|fuel] i buf pos s T V N Hf; try lia; destruct (ch_step i buf pos s T V) as (buf' & pos' & s' & V' & E); rewrite E; apply next_inv in N.
    - replace (i <? Z.to_nat (T 0%nat))%nat with false by (symmetry; apply Nat.ltb_ge; lia). eauto.
    - destruct N as [N0 N]. replace (i <? Z.to_nat (T 0%nat))%nat with true by (symmetry; apply Nat.ltb_lt; lia).
      destruct (IHm fuel _ _ _ _ _ V' N ltac:(lia)) as (x' & E' & V2). exists x'. split; auto.
  Qed.
  Lemma sign_bit : forall sg k, 1 - 2 * Z.land (Z.shiftr sg (Z.of_nat k)) 1 = if Z.testbit sg (Z.of_nat k) then -1 else 1.
  Proof.
    intros. change (Z.land (Z.shiftr sg (Z.of_nat k)) 1) with (Z.land (Z.shiftr sg (Z.of_nat k)) (Z.ones 1)). rewrite Z.land_ones by lia. change (2 ^ 1) with 2.
    rewrite <- Z.bit0_mod, Z.shiftr_spec by lia. cbn [Z.add]. destruct (Z.testbit _ _); reflexivity.
  Qed.
  Lemma ch_loop_sound : forall fuel sg tau cnt i c x T r, view x T -> (i + cnt = 256)%nat -> (256 <= i + tau)%nat ->
    ch_loop St rd fuel cnt i (Z.shiftr sg (Z.of_nat (i + tau - 256))) c x = Some r -> exists n, ball (fun t => Z.testbit sg (Z.of_nat t)) tau i (take n T) c = Some r.
  Proof.
    intros fuel sg tau. induction cnt; intros i c x T r V Hi Ht H; cbn [ch_loop] in H.
    - exists 0%nat. cbn. replace (i =? 256)%nat with true by (symmetry; apply Nat.eqb_eq; lia). exact H.
    - destruct x as [[buf pos] s]. destruct (ch_byte St rd fuel i buf pos s) as [[b x']|] eqn:E; [|discriminate].
      destruct (ch_byte_sound fuel i buf pos s T b x' V E) as (m & N & -> & V').
      rewrite sign_bit in H. rewrite Z.shiftr_shiftr in H by lia. replace (Z.of_nat (i + tau - 256) + 1) with (Z.of_nat (S i + tau - 256)) in H by lia.
      destruct (IHcnt (S i) _ x' _ r V' ltac:(lia) ltac:(lia) H) as (n & B). exists (S m + n)%nat. rewrite ball_next by (auto; lia). rewrite !put_upd. exact B.
  Qed.
  Lemma ch_loop_complete : forall fuel sg tau cnt n i c x T r, view x T -> (i + cnt = 256)%nat -> (256 <= i + tau)%nat -> (n <= fuel)%nat ->
    ball (fun t => Z.testbit sg (Z.of_nat t)) tau i (take n T) c = Some r -> ch_loop St rd fuel cnt i (Z.shiftr sg (Z.of_nat (i + tau - 256))) c x = Some r.
  Proof.
    intros fuel sg tau. induction cnt; intros n i c x T r V Hi Ht Hn H; cbn [ch_loop].
    - assert (i = 256%nat) by lia. subst i. destruct (take n T); exact H.
    - destruct x as [[buf pos] s]. destruct (ball_has_next _ tau i n T c r ltac:(lia) H) as (m & Hm & N).
      destruct (ch_byte_complete m fuel i buf pos s T V N ltac:(lia)) as (x' & E & V'). rewrite E.
      replace n with (S m + (n - S m))%nat in H by lia. rewrite ball_next in H by (auto; lia).
      rewrite sign_bit, Z.shiftr_shiftr by lia. replace (Z.of_nat (i + tau - 256) + 1) with (Z.of_nat (S i + tau - 256)) by lia. rewrite <- !put_upd.
      apply (IHcnt (n - S m)%nat _ _ _ (shift (S m) T)); auto; lia.
  Qed.
  Definition in_ball (tau : nat) (st : nat -> Z) (c : list Z) : Prop :=
    exists n, ball (fun t => Z.testbit (st (t / 8)%nat) (Z.of_nat (t mod 8))) tau (256 - tau) (take n (shift 8 st)) (zeros 256) = Some c.
  Lemma ball_ext : forall f g tau B i c, (forall t, (t < tau)%nat -> f t = g t) -> (i <= 256)%nat -> (256 <= i + tau)%nat -> ball f tau i B c = ball g tau i B c.
  Proof.
    intros f g tau B. induction B; intros i c E Hi Ht; cbn [ball]; destruct (Nat.eqb_spec i 256); auto.
    destruct (_ <? _); [apply IHB; auto|]. rewrite E by lia. apply IHB; auto; lia.
  Qed.
  Lemma first_view : forall s st, R s st -> view (take 136 st, 8%nat, snd (rd s 136)) (shift 8 st).
  Proof.
    intros s st HR. destruct (R_rd s st 136 HR) as [_ HR']. exists (shift 136 st). split; auto. rewrite length_take. repeat split; auto; try lia. apply bytes_take, (R_bytes s st HR).
    intro j. unfold shift, take. destruct (Nat.ltb_spec j (136 - 8)). rewrite nth_map_seq by lia. reflexivity. f_equal. lia.
  Qed.
  Lemma sign_word : forall s st t, R s st -> (t < 64)%nat -> Z.testbit (le_val (firstn 8 (take 136 st))) (Z.of_nat t) = Z.testbit (st (t / 8)%nat) (Z.of_nat (t mod 8)).
  Proof.
    intros s st t HR Ht. rewrite firstn_take by lia. rewrite testbit_le_val by (try lia; apply bytes_take, (R_bytes s st HR)).
    change 8 with (Z.of_nat 8). rewrite <- Nat2Z.inj_div, <- Nat2Z.inj_mod, Nat2Z.id. unfold take. rewrite nth_map_seq. reflexivity.
    apply Nat.div_lt_upper_bound; lia.
  Qed.
  Theorem challenge_from_ok : forall tau s st c, R s st -> (tau <= 64)%nat -> (tau <= 256)%nat ->
    (forall fuel, challenge_from St rd fuel tau s = Some c -> in_ball tau st c) /\
    (in_ball tau st c -> exists f0, forall fuel, (f0 <= fuel)%nat -> challenge_from St rd fuel tau s = Some c).
  Proof.
    intros tau s st c HR Ht Ht'. pose proof (first_view s st HR) as V. destruct (R_rd s st 136 HR) as [E1 _].
    assert (X : forall B, ball (fun t => Z.testbit (le_val (firstn 8 (take 136 st))) (Z.of_nat t)) tau (256 - tau) B (zeros 256) =
                ball (fun t => Z.testbit (st (t / 8)%nat) (Z.of_nat (t mod 8))) tau (256 - tau) B (zeros 256)).
    { intro B. apply ball_ext; try lia. intros t Hlt. apply (sign_word s); auto. lia. }
    assert (Z0 : forall v, v = Z.shiftr v (Z.of_nat (256 - tau + tau - 256))) by (intro; replace (256 - tau + tau - 256)%nat with 0%nat by lia; symmetry; apply Z.shiftr_0_r).
    unfold challenge_from. destruct (rd s 136) as [o s']. cbn [fst snd] in *. subst o. split.
    - intros fuel H. rewrite (Z0 (le_val _)) in H. apply (ch_loop_sound fuel _ tau tau (256 - tau) _ _ (shift 8 st)) in H; auto; try lia. destruct H as [n H]. exists n. rewrite X in H. exact H.
    - intros [n H]. exists n. intros fuel Hf. rewrite (Z0 (le_val _)). rewrite <- X in H. apply (ch_loop_complete fuel _ tau tau n _ _ _ (shift 8 st)); auto; lia.
  Qed.
End Reader.

(** ** SHAKE contexts as readers *)
Definition RK (c : kctx) (st : nat -> Z) : Prop :=
  (forall i, byte (st i)) /\ forall ns, concat (fst (xof_reads permB c ns)) = take (list_sum ns) st /\ map (@length Z) (fst (xof_reads permB c ns)) = ns.
Lemma RK_bytes : forall c st, RK c st -> forall i, byte (st i).
Proof. intros c st H. apply H. Qed.
Lemma reads_cons : forall c n ns, fst (xof_reads permB c (n :: ns)) = fst (xof_read permB c n) :: fst (xof_reads permB (snd (xof_read permB c n)) ns).
Proof.
  intros. cbn [xof_reads]. destruct (xof_read permB c n) as [o c']. cbn [fst snd]. destruct (xof_reads permB c' ns). reflexivity.
Qed.
Lemma RK_rd : forall c st n, RK c st -> fst (xof_read permB c n) = take n st /\ RK (snd (xof_read permB c n)) (shift n st).
Proof.
  intros c st n [HB H].
  assert (V : forall ns, concat (fst (xof_read permB c n) :: fst (xof_reads permB (snd (xof_read permB c n)) ns)) = take (n + list_sum ns) st /\
     map (@length Z) (fst (xof_read permB c n) :: fst (xof_reads permB (snd (xof_read permB c n)) ns)) = n :: ns).
  { intro ns. rewrite <- reads_cons. exact (H (n :: ns)). }
  clear H. set (o := fst (xof_read permB c n)) in *. set (c' := snd (xof_read permB c n)) in *. clearbody o c'. cbn [concat map] in V.
  assert (L : length o = n) by (destruct (V []) as [_ X]; congruence).
  assert (E : forall ns, o = take n st /\ concat (fst (xof_reads permB c' ns)) = take (list_sum ns) (shift n st)).
  { intro ns. destruct (V ns) as [X _]. rewrite take_add in X. apply app_inj_1 in X. exact X. rewrite length_take; auto. }
  split. apply (E []). split. intro i. apply HB. intro ns. split. apply E. destruct (V ns) as [_ X]. congruence.
Qed.
Definition sh128 (m : list Z) (i : nat) : Z := nth i (SHAKE128 m (S i)) 0.
Definition sh256 (m : list Z) (i : nat) : Z := nth i (SHAKE256 m (S i)) 0.
Lemma take_sh128 : forall m n, take n (sh128 m) = SHAKE128 m n.
Proof.
  intros. unfold take. apply (nth_ext _ _ 0 0). rewrite map_length, seq_length, SHAKE128_len. reflexivity.
  intros i Hi. rewrite map_length, seq_length in Hi. rewrite nth_map_seq by auto. unfold sh128.
  replace n with (S i + (n - S i))%nat by lia. rewrite SHAKE128_prefix, app_nth1; auto. rewrite SHAKE128_len. lia.
Qed.
Lemma SHAKE256_prefix : forall m a b, SHAKE256 m (a + b) = SHAKE256 m a ++ keccak_c 64 31 m a b.
Proof. intros. unfold SHAKE256, keccak_c, sponge. rewrite seq_app, map_app. reflexivity. Qed.
Lemma take_sh256 : forall m n, take n (sh256 m) = SHAKE256 m n.
Proof.
  intros. unfold take. apply (nth_ext _ _ 0 0). rewrite map_length, seq_length, SHAKE256_len. reflexivity.
  intros i Hi. rewrite map_length, seq_length in Hi. rewrite nth_map_seq by auto. unfold sh256.
  replace n with (S i + (n - S i))%nat by lia. rewrite SHAKE256_prefix, app_nth1; auto. rewrite SHAKE256_len. lia.
Qed.
Lemma RK_sh128 : forall ms, Forall bytes ms -> Z.of_nat (length (concat ms)) < 2 ^ 64 -> RK (keccak_updates permB (keccak_init alg_shake128) ms) (sh128 (concat ms)).
Proof.
  intros ms B L. split.
  - intro i. unfold sh128. assert (X : bytes (SHAKE128 (concat ms) (S i))) by (apply SHAKE128_bytes, bytes_concat; auto). unfold bytes in X. rewrite Forall_forall in X. apply X, nth_In. rewrite SHAKE128_len. lia.
  - intro ns. destruct (sha3_family_reads alg_shake128 ms ns) as [E1 E2]; auto. { cbn; auto 10. } split; [|exact E2].
    rewrite E1, take_sh128. unfold SHAKE128, keccak_c. change (a_r alg_shake128) with (200 - 32)%nat. change (a_padding alg_shake128) with 31. reflexivity.
Qed.
Lemma RK_sh256 : forall ms, Forall bytes ms -> Z.of_nat (length (concat ms)) < 2 ^ 64 -> RK (keccak_updates permB (keccak_init alg_shake256) ms) (sh256 (concat ms)).
Proof.
  intros ms B L. split.
  - intro i. unfold sh256. assert (X : bytes (SHAKE256 (concat ms) (S i))) by (apply SHAKE256_bytes, bytes_concat; auto). unfold bytes in X. rewrite Forall_forall in X. apply X, nth_In. rewrite SHAKE256_len. lia.
  - intro ns. destruct (sha3_family_reads alg_shake256 ms ns) as [E1 E2]; auto. { cbn; auto 10. } split; [|exact E2].
    rewrite E1, take_sh256. unfold SHAKE256, keccak_c. change (a_r alg_shake256) with (200 - 64)%nat. change (a_padding alg_shake256) with 31. reflexivity.
Qed.
Lemma shake256_of_ok : forall ms n, Forall bytes ms -> Z.of_nat (length (concat ms)) < 2 ^ 64 -> shake256_of ms n = SHAKE256 (concat ms) n.
Proof.
  intros ms n B L. unfold shake256_of. destruct (RK_rd _ _ n (RK_sh256 ms B L)) as [E _]. rewrite E. apply take_sh256.
Qed.

(** ** the sampling functions of the library *)
Lemma le16_bytes : forall n, bytes (le16 n).
Proof. intro. repeat apply Forall_cons; try apply Forall_nil; unfold byte, u8; apply Z.mod_pos_bound; lia. Qed.
Lemma le16_spec : forall n, 0 <= n < 65536 -> le16 n = IntegerToBytes2 n.
Proof. intros n H. unfold le16, IntegerToBytes2, u8. rewrite Z.shiftr_div_pow2 by lia. reflexivity. Qed.
Lemma skipping_id : forall i n st p, (0 < n)%nat -> skipping i n n st p = st p.
Proof.
  intros. unfold skipping. destruct (Nat.ltb_spec p i); auto. f_equal. pose proof (Nat.div_mod (p - i) n ltac:(lia)). lia.
Qed.
Lemma skipping_small : forall i n u st p, (0 < u)%nat -> (p < i + u)%nat -> skipping i n u st p = st p.
Proof.
  intros. unfold skipping. destruct (Nat.ltb_spec p i); auto. f_equal. rewrite Nat.div_small, Nat.mod_small by lia. lia.
Qed.
Lemma first256_ext : forall cand st st' a, (forall p, st p = st' p) -> first256 cand st a -> first256 cand st' a.
Proof. intros cand st st' a E [L [n H]]. split; auto. exists n. rewrite <- (take_ext n st st'); auto. Qed.
(** agreement as far as needed *)
Lemma first256_within : forall (cand : list Z -> list Z) st st' a N, (forall a b, exists t, cand (a ++ b) = cand a ++ t) ->
  (forall p, (p < N)%nat -> st p = st' p) -> (256 <= length (cand (take N st')))%nat -> first256 cand st a -> first256 cand st' a.
Proof.
  intros cand st st' a N M E H F. assert (F' : first256 cand st (firstn 256 (cand (take N st')))).
  { split. rewrite firstn_length. lia. exists N. rewrite (take_ext N st st'); auto. }
  rewrite (first256_det cand st M a _ F F'). split. rewrite firstn_length; lia. eauto.
Qed.
Section Shake.
  Variables (seed : list Z) (nonce : Z).
  Hypothesis Bs : bytes seed.
  Hypothesis Ls : (length seed <= 64)%nat.
  Hypothesis Hn : 0 <= nonce < 65536.
  Let B := seed ++ IntegerToBytes2 nonce.
  Let ms := [seed; le16 nonce].
  Lemma ms2_bytes : Forall bytes ms.
  Proof. apply Forall_cons; auto. apply Forall_cons; [apply le16_bytes|apply Forall_nil]. Qed.
  Lemma ms2_cat : concat ms = B.
  Proof. unfold ms, B. cbn [concat]. rewrite app_nil_r, le16_spec by auto. reflexivity. Qed.
  Lemma ms2_len : Z.of_nat (length (concat ms)) < 2 ^ 64.
  Proof. unfold ms. cbn [concat]. rewrite !app_length. cbn [le16 length]. lia. Qed.
  Lemma R128 : RK (keccak_updates permB (keccak_init alg_shake128) ms) (sh128 B).
  Proof. rewrite <- ms2_cat. apply RK_sh128. apply ms2_bytes. apply ms2_len. Qed.
  Lemma R256 : RK (keccak_updates permB (keccak_init alg_shake256) ms) (sh256 B).
  Proof. rewrite <- ms2_cat. apply RK_sh256. apply ms2_bytes. apply ms2_len. Qed.
  Theorem poly_uniform_skips : forall a, (forall fuel, d_poly_uniform fuel seed nonce = Some a -> first256 accept3 (skipping 840 168 32 (sh128 B)) a) /\
    (first256 accept3 (skipping 840 168 32 (sh128 B)) a -> exists f0, forall fuel, (f0 <= fuel)%nat -> d_poly_uniform fuel seed nonce = Some a).
  Proof.
    intro a. unfold d_poly_uniform. fold ms. pose proof R128 as X. set (k := keccak_updates permB (keccak_init alg_shake128) ms) in *. clearbody k. split.
    - intros fuel H. exact (uniform_from_sound kctx (xof_read permB) RK RK_rd RK_bytes fuel _ _ a X H).
    - intro H. exact (uniform_from_complete kctx (xof_read permB) RK RK_rd RK_bytes _ _ a X H).
  Qed.
  Lemma RejNTT_first256 : forall a, RejNTTPoly B a <-> first256 accept3 (sh128 B) a.
  Proof.
    intro a. split.
    - intros [L [n E]]. split; auto. exists (3 * n)%nat. rewrite take_sh128. exact E.
    - intros F. pose proof F as [L [n E]]. split; auto. exists n. rewrite <- take_sh128.
      replace (3 * n)%nat with (n + 2 * n)%nat by lia. rewrite take_add. destruct (accept3_mono (take n (sh128 B)) (take (2 * n) (shift n (sh128 B)))) as [t ->].
      rewrite <- E, firstn_length in L. rewrite firstn_app. replace (256 - length (accept3 (take n (sh128 B))))%nat with 0%nat by lia. rewrite firstn_O, app_nil_r. exact E.
  Qed.
  Lemma RejBounded_first256 : forall eta a, RejBoundedPoly eta B a <-> first256 (accept_eta eta) (sh256 B) a.
  Proof.
    intros eta a. split; intros [L [n E]]; split; auto; exists n; [rewrite take_sh256|rewrite <- take_sh256]; exact E.
  Qed.
  Theorem poly_eta_skips : forall eta a, In eta [2; 4] ->
    (forall fuel, d_poly_uniform_eta fuel eta seed nonce = Some a -> first256 (accept_eta eta) (skipping (eta_read eta) (eta_read eta) 136 (sh256 B)) a) /\
    (first256 (accept_eta eta) (skipping (eta_read eta) (eta_read eta) 136 (sh256 B)) a -> exists f0, forall fuel, (f0 <= fuel)%nat -> d_poly_uniform_eta fuel eta seed nonce = Some a).
  Proof.
    intros eta a He. unfold d_poly_uniform_eta. fold ms. pose proof R256 as X. set (k := keccak_updates permB (keccak_init alg_shake256) ms) in *. clearbody k. split.
    - intros fuel H. exact (eta_from_sound kctx (xof_read permB) RK RK_rd RK_bytes eta He fuel _ _ a X H).
    - intro H. exact (eta_from_complete kctx (xof_read permB) RK RK_rd RK_bytes eta He _ _ a X H).
  Qed.
End Shake.
Theorem challenge_ok : forall P seed c, bytes seed -> (length seed <= 64)%nat -> (d_tau P <= 64)%nat ->
  (forall fuel, d_poly_challenge fuel P seed = Some c -> SampleInBall (d_tau P) seed c) /\
  (SampleInBall (d_tau P) seed c -> exists f0, forall fuel, (f0 <= fuel)%nat -> d_poly_challenge fuel P seed = Some c).
Proof.
  intros P seed c Bs Ls Ht.
  assert (HR : RK (keccak_updates permB (keccak_init alg_shake256) [seed]) (sh256 seed)).
  { pose proof (RK_sh256 [seed]) as X. cbn [concat] in X. rewrite app_nil_r in X. apply X. apply Forall_cons; auto. lia. }
  unfold d_poly_challenge. set (k := keccak_updates permB (keccak_init alg_shake256) [seed]) in *. clearbody k.
  destruct (challenge_from_ok kctx (xof_read permB) RK RK_rd RK_bytes (d_tau P) _ _ c HR Ht ltac:(lia)) as [A1 A2].
  assert (EQ : forall n, let s := SHAKE256 seed (8 + n) in
     ball (fun t => Z.testbit (nth (t / 8) s 0) (Z.of_nat (t mod 8))) (d_tau P) (256 - d_tau P) (skipn 8 s) (zeros 256) =
     ball (fun t => Z.testbit (sh256 seed (t / 8)%nat) (Z.of_nat (t mod 8))) (d_tau P) (256 - d_tau P) (take n (shift 8 (sh256 seed))) (zeros 256)).
  { intros n s. unfold s. rewrite <- take_sh256. replace (skipn 8 (take (8 + n) (sh256 seed))) with (take n (shift 8 (sh256 seed))).
    2:{ rewrite take_add. rewrite <- (length_take 8 (sh256 seed)) at 2. symmetry. apply skipn_length_app. }
    apply ball_ext; try lia. intros t Hlt. f_equal. unfold take. rewrite nth_map_seq; auto.
    assert (t / 8 < 8)%nat by (apply Nat.div_lt_upper_bound; lia). lia. }
  split.
  - intros fuel H. destruct (A1 fuel H) as [n E]. exists n. rewrite <- EQ in E. exact E.
  - intros [n E]. apply A2. exists n. rewrite <- EQ. exact E.
Qed.
