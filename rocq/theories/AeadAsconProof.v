(** Proofs about the Ascon family AEAD model. *)
From Verif Require Import Bytes Words AsconSpec AsconModel AsconPerm KeccakBytes UtilModel UtilProof
  AeadAsconModel AeadAsconSpec.

(** * The byte machine behind enc_update / dec_update *)
Section Machine.
Variable H : sponge.
Let rate := sp_rate H.
Variable L rb : nat.
Hypothesis rate_pos : (0 < rate)%nat.
Hypothesis rate_le : (rate <= L)%nat.
Hypothesis P_len : forall r s, length s = L -> length (sp_perm H r s) = L.
Let Pb := sp_perm H rb.

Fixpoint ebytes (s : list Z) (off : nat) (pt : list Z) : list Z * nat * list Z :=
  match pt with
  | [] => (s, off, [])
  | b :: r =>
      let s0 := if (off =? rate)%nat then Pb s else s in
      let o0 := if (off =? rate)%nat then 0%nat else off in
      let s1 := xor_at s0 o0 [b] in
      let '(s2, o2, c) := ebytes s1 (S o0) r in (s2, o2, nth o0 s1 0 :: c)
  end.
Fixpoint dbytes (s : list Z) (off : nat) (ct : list Z) : list Z * nat * list Z :=
  match ct with
  | [] => (s, off, [])
  | c :: r =>
      let s0 := if (off =? rate)%nat then Pb s else s in
      let o0 := if (off =? rate)%nat then 0%nat else off in
      let '(s2, o2, p) := dbytes (store_at s0 o0 [c]) (S o0) r in (s2, o2, Z.lxor (nth o0 s0 0) c :: p)
  end.

Lemma ebytes_app : forall a b s off, ebytes s off (a ++ b) =
  let '(s1, o1, c1) := ebytes s off a in let '(s2, o2, c2) := ebytes s1 o1 b in (s2, o2, c1 ++ c2).
Proof.
  induction a as [|x a IH]; intros b s off.
  - simpl. destruct (ebytes s off b) as [[? ?] ?]. reflexivity.
  - cbn [app ebytes]. rewrite IH.
    destruct (ebytes (xor_at _ _ _) _ a) as [[s1 o1] c1].
    destruct (ebytes s1 o1 b) as [[? ?] ?]. reflexivity.
Qed.
Lemma dbytes_app : forall a b s off, dbytes s off (a ++ b) =
  let '(s1, o1, c1) := dbytes s off a in let '(s2, o2, c2) := dbytes s1 o1 b in (s2, o2, c1 ++ c2).
Proof.
  induction a as [|x a IH]; intros b s off.
  - simpl. destruct (dbytes s off b) as [[? ?] ?]. reflexivity.
  - cbn [app dbytes]. rewrite IH.
    destruct (dbytes (store_at _ _ _) _ a) as [[s1 o1] c1].
    destruct (dbytes s1 o1 b) as [[? ?] ?]. reflexivity.
Qed.

Lemma xor_at_cons : forall s off x d, (off < length s)%nat ->
  xor_at (xor_at s off [x]) (S off) d = xor_at s off (x :: d).
Proof.
  intros s off x d Ho. change (x :: d) with ([x] ++ d). rewrite (xor_at_app s off [x] d) by (simpl; lia).
  simpl length. replace (off + 1)%nat with (S off) by lia. reflexivity.
Qed.
Lemma nth_slice_S : forall (s : list Z) off n, (off < length s)%nat ->
  slice s off (S n) = nth off s 0 :: slice s (S off) n.
Proof.
  intros s off. revert s. induction off as [|o IH]; intros [|y s] n Ho; simpl in Ho; try lia.
  - reflexivity.
  - exact (IH s n ltac:(lia)).
Qed.

Lemma ebytes_run : forall d s off, length s = L -> (off + length d <= rate)%nat ->
  ebytes s off d = (xor_at s off d, (off + length d)%nat, slice (xor_at s off d) off (length d)).
Proof.
  induction d as [|x d IH]; intros s off Hs Hd.
  - simpl. rewrite xor_at_nil, Nat.add_0_r. reflexivity.
  - cbn [ebytes length] in *.
    assert (E : (off =? rate)%nat = false) by (apply Nat.eqb_neq; lia). rewrite E.
    rewrite IH by (rewrite ?length_xor_at; lia).
    rewrite xor_at_cons by lia. rewrite nth_slice_S by (rewrite length_xor_at; lia).
    replace (S off + length d)%nat with (off + S (length d))%nat by lia.
    assert (E2 : nth off (xor_at s off [x]) 0 = nth off (xor_at s off (x :: d)) 0).
    { rewrite !nth_xor_at by lia. rewrite Nat.ltb_irrefl, Nat.sub_diag. reflexivity. }
    rewrite E2. reflexivity.
Qed.

Lemma store_at_cons : forall s off x d, (off + S (length d) <= length s)%nat ->
  store_at (store_at s off [x]) (S off) d = store_at s off (x :: d).
Proof.
  intros s off x d Ho. 
  assert (L1 : length (store_at s off [x]) = length s) by (apply store_at_length; simpl; lia).
  apply nth_ext0.
  - rewrite !store_at_length; simpl; lia.
  - intros i Hi. rewrite !nth_store_at by (simpl; lia). simpl length.
    destruct (Nat.leb_spec (S off) i), (Nat.ltb_spec i (S off + length d)),
      (Nat.leb_spec off i), (Nat.ltb_spec i (off + 1)), (Nat.ltb_spec i (off + S (length d)));
      simpl; try lia; auto.
    + replace (i - off)%nat with (S (i - S off)) by lia. reflexivity.
    + replace (i - off)%nat with 0%nat by lia. reflexivity.
Qed.
Lemma slice_store_tail : forall s off x n, (off < length s)%nat ->
  slice (store_at s off [x]) (S off) n = slice s (S off) n.
Proof.
  intros s off x n Ho. unfold slice. f_equal. unfold store_at. simpl length.
  assert (L1 : length (firstn off s ++ [x]) = S off) by (rewrite app_length, firstn_length; simpl; lia).
  simpl firstn. rewrite (firstn_all2 [x]) by (simpl; lia). rewrite app_assoc. rewrite skipn_app_r by lia.
  rewrite L1, Nat.sub_diag. simpl skipn at 1. apply (f_equal (fun k => skipn k s)). lia.
Qed.

Lemma dbytes_run : forall d s off, length s = L -> (off + length d <= rate)%nat ->
  dbytes s off d = (store_at s off d, (off + length d)%nat, xorl (slice s off (length d)) d).
Proof.
  induction d as [|x d IH]; intros s off Hs Hd.
  - simpl. rewrite Nat.add_0_r. unfold store_at. simpl length. rewrite firstn_nil, Nat.add_0_r. simpl app.
    rewrite firstn_skipn. reflexivity.
  - cbn [dbytes length] in *.
    assert (E : (off =? rate)%nat = false) by (apply Nat.eqb_neq; lia). rewrite E.
    assert (L1 : length (store_at s off [x]) = L) by (rewrite store_at_length; simpl; lia).
    rewrite IH by lia. rewrite store_at_cons by lia. rewrite slice_store_tail by lia.
    replace (S off + length d)%nat with (off + S (length d))%nat by lia.
    rewrite (nth_slice_S s off) by lia. reflexivity.
Qed.

(** XORing in the recovered plaintext is the same as overwriting with the ciphertext. *)
Lemma xor_store : forall d s off, (off + length d <= length s)%nat ->
  xor_at s off (xorl (slice s off (length d)) d) = store_at s off d.
Proof.
  intros d s off Hd.
  assert (Ls : length (slice s off (length d)) = length d) by (apply length_slice; lia).
  assert (Lx : length (xorl (slice s off (length d)) d) = length d) by (rewrite length_xorl; lia).
  apply nth_ext0.
  - rewrite length_xor_at, store_at_length; lia.
  - intros i Hi. rewrite length_xor_at in Hi.
    rewrite nth_xor_at, nth_store_at by lia.
    destruct (Nat.ltb_spec i off), (Nat.leb_spec off i), (Nat.ltb_spec i (off + length d));
      simpl; try lia; auto.
    + rewrite nth_xorl by lia. rewrite nth_slice by lia.
      replace (off + (i - off))%nat with i by lia.
      rewrite <- Z.lxor_assoc, Z.lxor_nilpotent, Z.lxor_0_l. reflexivity.
    + rewrite (nth_overflow (xorl _ _)) by lia. apply Z.lxor_0_r.
Qed.

Lemma ebytes_wrap : forall s b r, ebytes s rate (b :: r) = ebytes (Pb s) 0 (b :: r).
Proof.
  intros. cbn [ebytes]. rewrite Nat.eqb_refl.
  assert (E : (0 =? rate)%nat = false) by (apply Nat.eqb_neq; lia). rewrite E. reflexivity.
Qed.
Lemma dbytes_wrap : forall s b r, dbytes s rate (b :: r) = dbytes (Pb s) 0 (b :: r).
Proof.
  intros. cbn [dbytes]. rewrite Nat.eqb_refl.
  assert (E : (0 =? rate)%nat = false) by (apply Nat.eqb_neq; lia). rewrite E. reflexivity.
Qed.

Lemma enc_loop_bytes : forall fuel pt s off, length s = L -> (off <= rate)%nat ->
  (length pt + (if off =? rate then 1 else 0) <= fuel)%nat ->
  enc_loop H fuel rb s off pt = ebytes s off pt.
Proof.
  induction fuel as [|f IH]; intros pt s off Hs Ho Hf.
  - destruct pt; [reflexivity|]. simpl in Hf. lia.
  - destruct pt as [|b r]; [reflexivity|].
    cbn [enc_loop]. fold rate. fold Pb.
    set (pt := b :: r) in *.
    assert (Hp : (0 < length pt)%nat) by (simpl; lia).
    set (todo := Nat.min (length pt) (rate - off)).
    assert (Lf : length (firstn todo pt) = todo) by (rewrite firstn_length; unfold todo; lia).
    assert (Hrun := ebytes_run (firstn todo pt) s off Hs ltac:(rewrite Lf; unfold todo; lia)).
    rewrite Lf in Hrun.
    destruct (skipn todo pt) as [|y rest] eqn:Es.
    + assert (todo = length pt).
      { assert (Hl : length (skipn todo pt) = 0%nat) by (rewrite Es; reflexivity).
        rewrite skipn_length in Hl. unfold todo in *. lia. }
      rewrite (firstn_all2 pt) in Hrun by lia. rewrite Hrun.
      rewrite (firstn_all2 pt) by lia. reflexivity.
    + assert (Ht : todo = (rate - off)%nat).
      { assert (Hl : length (skipn todo pt) = S (length rest)) by (rewrite Es; reflexivity).
        rewrite skipn_length in Hl. unfold todo in *. lia. }
      rewrite IH.
      2:{ apply P_len. rewrite length_xor_at. exact Hs. }
      2: lia.
      2:{ assert (E : (0 =? rate)%nat = false) by (apply Nat.eqb_neq; lia). rewrite E.
          rewrite <- Es, skipn_length.
          destruct (off =? rate)%nat eqn:Eo.
          - apply Nat.eqb_eq in Eo. lia.
          - apply Nat.eqb_neq in Eo. lia. }
      replace (ebytes s off pt) with (ebytes s off (firstn todo pt ++ skipn todo pt))
        by (rewrite firstn_skipn; reflexivity).
      rewrite ebytes_app, Hrun.
      replace (off + todo)%nat with rate by lia. rewrite Es, ebytes_wrap. reflexivity.
Qed.

Lemma dec_loop_bytes : forall fuel ct s off ip, length s = L -> (off <= rate)%nat -> (rate <= 136)%nat \/ ip = false ->
  (length ct + (if off =? rate then 1 else 0) <= fuel)%nat ->
  dec_loop H fuel rb ip s off ct = Some (dbytes s off ct).
Proof.
  induction fuel as [|f IH]; intros pt s off ip Hs Ho H136 Hf.
  - destruct pt; [reflexivity|]. simpl in Hf. lia.
  - destruct pt as [|b r]; [reflexivity|].
    cbn [dec_loop]. fold rate. fold Pb.
    set (pt := b :: r) in *.
    assert (Hp : (0 < length pt)%nat) by (simpl; lia).
    set (todo := Nat.min (length pt) (rate - off)).
    assert (E136 : ip && (136 <? todo)%nat = false).
    { destruct H136 as [H136| ->]; [|reflexivity].
      destruct ip; [|reflexivity]. apply Nat.ltb_ge. unfold todo. lia. }
    rewrite E136.
    assert (Lf : length (firstn todo pt) = todo) by (rewrite firstn_length; unfold todo; lia).
    assert (Hrun := dbytes_run (firstn todo pt) s off Hs ltac:(rewrite Lf; unfold todo; lia)).
    rewrite Lf in Hrun.
    destruct (skipn todo pt) as [|y rest] eqn:Es.
    + assert (Hte : todo = length pt).
      { assert (Hl : length (skipn todo pt) = 0%nat) by (rewrite Es; reflexivity).
        rewrite skipn_length in Hl. unfold todo in *. lia. }
      rewrite (firstn_all2 pt) in * by lia. rewrite Hte in *. rewrite Hrun.
      rewrite xor_store by (unfold todo in *; lia). reflexivity.
    + assert (Ht : todo = (rate - off)%nat).
      { assert (Hl : length (skipn todo pt) = S (length rest)) by (rewrite Es; reflexivity).
        rewrite skipn_length in Hl. unfold todo in *. lia. }
      rewrite IH; auto.
      2:{ apply P_len. rewrite store_at_length by lia. exact Hs. }
      2: lia.
      2:{ assert (E : (0 =? rate)%nat = false) by (apply Nat.eqb_neq; lia). rewrite E.
          rewrite <- Es, skipn_length.
          destruct (off =? rate)%nat eqn:Eo.
          - apply Nat.eqb_eq in Eo. lia.
          - apply Nat.eqb_neq in Eo. lia. }
      replace (dbytes s off pt) with (dbytes s off (firstn todo pt ++ skipn todo pt))
        by (rewrite firstn_skipn; reflexivity).
      rewrite dbytes_app, Hrun.
      replace (off + todo)%nat with rate by lia. rewrite Es, dbytes_wrap.
      destruct (dbytes _ 0 _) as [[? ?] ?]. reflexivity.
Qed.

Lemma ebytes_inv : forall pt s off, length s = L -> (off <= rate)%nat ->
  let '(s1, o1, c) := ebytes s off pt in
  dbytes s off c = (s1, o1, pt) /\ length s1 = L /\ (o1 <= rate)%nat /\ length c = length pt.
Proof.
  induction pt as [|x pt IH]; intros s off Hs Ho.
  - simpl. auto.
  - cbn [ebytes].
    set (s0 := if (off =? rate)%nat then Pb s else s). set (o0 := if (off =? rate)%nat then 0%nat else off).
    assert (Hs0 : length s0 = L) by (unfold s0; destruct (off =? rate)%nat; auto; apply P_len; auto).
    assert (Ho0 : (o0 < rate)%nat) by (unfold o0; destruct (Nat.eqb_spec off rate); lia).
    specialize (IH (xor_at s0 o0 [x]) (S o0) ltac:(rewrite length_xor_at; auto) ltac:(lia)).
    destruct (ebytes (xor_at s0 o0 [x]) (S o0) pt) as [[s1 o1] c].
    destruct IH as (A & B & C & D).
    split; [|simpl; auto with arith].
    cbn [dbytes]. fold s0. fold o0.
    assert (En : nth o0 (xor_at s0 o0 [x]) 0 = Z.lxor (nth o0 s0 0) x).
    { rewrite nth_xor_at by lia. rewrite Nat.ltb_irrefl, Nat.sub_diag. reflexivity. }
    assert (Est : store_at s0 o0 [nth o0 (xor_at s0 o0 [x]) 0] = xor_at s0 o0 [x]).
    { apply nth_ext0.
      - rewrite length_xor_at. apply store_at_length. simpl. lia.
      - intros i Hi. rewrite nth_store_at by (simpl; lia). simpl length.
        destruct (Nat.leb_spec o0 i), (Nat.ltb_spec i (o0 + 1)); simpl.
        + replace i with o0 by lia. rewrite Nat.sub_diag. reflexivity.
        + rewrite nth_xor_at by (rewrite store_at_length in Hi; simpl in *; lia).
          destruct (Nat.ltb_spec i o0); [lia|]. rewrite (nth_overflow [x]) by (simpl; lia).
          rewrite Z.lxor_0_r. reflexivity.
        + rewrite nth_xor_at by (rewrite store_at_length in Hi; simpl in *; lia).
          destruct (Nat.ltb_spec i o0); [reflexivity|lia].
        + lia. }
    rewrite Est, A, En, <- Z.lxor_assoc, Z.lxor_nilpotent, Z.lxor_0_l. reflexivity.
Qed.

(** * Streams of update calls *)
Definition wf (c : acry) : Prop := length (ac_st c) = L /\ (ac_off c <= rate)%nat /\ ac_roundb c = rb.

Lemma enc_update_bytes : forall c pt, wf c ->
  lc_ascon_enc_update H c pt =
  let '(s, o, ct) := ebytes (ac_st c) (ac_off c) pt in (set_so c s o, ct).
Proof.
  intros c pt (A & B & C). unfold lc_ascon_enc_update. rewrite C.
  rewrite enc_loop_bytes; auto. destruct (ac_off c =? rate)%nat; lia.
Qed.
Lemma dec_update_bytes : forall c ip ct, wf c -> (rate <= 136)%nat \/ ip = false ->
  lc_ascon_dec_update H c ip ct =
  Some (let '(s, o, pt) := dbytes (ac_st c) (ac_off c) ct in (set_so c s o, pt)).
Proof.
  intros c ip pt (A & B & C) H136. unfold lc_ascon_dec_update. rewrite C.
  rewrite dec_loop_bytes; auto.
  - destruct (dbytes _ _ _) as [[? ?] ?]. reflexivity.
  - destruct (ac_off c =? rate)%nat; lia.
Qed.
Lemma dbytes_wf : forall ct s off, length s = L -> (off <= rate)%nat ->
  let '(s1, o1, p) := dbytes s off ct in length s1 = L /\ (o1 <= rate)%nat /\ length p = length ct.
Proof.
  induction ct as [|x ct IH]; intros s off Hs Ho.
  - simpl. auto.
  - cbn [dbytes].
    set (s0 := if (off =? rate)%nat then Pb s else s). set (o0 := if (off =? rate)%nat then 0%nat else off).
    assert (Hs0 : length s0 = L) by (unfold s0; destruct (off =? rate)%nat; auto; apply P_len; auto).
    assert (Ho0 : (o0 < rate)%nat) by (unfold o0; destruct (Nat.eqb_spec off rate); lia).
    specialize (IH (store_at s0 o0 [x]) (S o0) ltac:(rewrite store_at_length; simpl; lia) ltac:(lia)).
    destruct (dbytes (store_at s0 o0 [x]) (S o0) ct) as [[s1 o1] c].
    destruct IH as (A & B & C). simpl. auto with arith.
Qed.

Lemma set_so_id : forall c, set_so c (ac_st c) (ac_off c) = c.
Proof. intros []. reflexivity. Qed.

Lemma enc_updates_bytes : forall pts c, wf c ->
  let '(c', cts) := enc_updates H c pts in
  let '(s, o, ct) := ebytes (ac_st c) (ac_off c) (concat pts) in
  c' = set_so c s o /\ concat cts = ct /\ map (@length Z) cts = map (@length Z) pts.
Proof.
  induction pts as [|p pts IH]; intros c Hw.
  - simpl. rewrite set_so_id. auto.
  - cbn [enc_updates concat]. rewrite enc_update_bytes by auto. rewrite ebytes_app.
    destruct Hw as (A & B & C).
    assert (X := ebytes_inv p (ac_st c) (ac_off c) A B).
    destruct (ebytes (ac_st c) (ac_off c) p) as [[s1 o1] c1]. destruct X as (_ & X1 & X2 & X3).
    specialize (IH (set_so c s1 o1) (conj X1 (conj X2 C))).
    destruct (enc_updates H (set_so c s1 o1) pts) as [c' cts].
    simpl ac_st in IH. simpl ac_off in IH.
    destruct (ebytes s1 o1 (concat pts)) as [[s2 o2] c2].
    destruct IH as (I1 & I2 & I3). subst. cbn [concat map]. rewrite X3, I3. auto.
Qed.
Lemma dec_updates_bytes : forall cts c ip, wf c -> (rate <= 136)%nat \/ ip = false ->
  exists pts, dec_updates H c ip cts =
    Some (let '(s, o, p) := dbytes (ac_st c) (ac_off c) (concat cts) in (set_so c s o), pts) /\
  concat pts = snd (dbytes (ac_st c) (ac_off c) (concat cts)) /\
  map (@length Z) pts = map (@length Z) cts.
Proof.
  induction cts as [|p cts IH]; intros c ip Hw H136.
  - exists []. simpl. rewrite set_so_id. auto.
  - cbn [dec_updates concat]. rewrite dec_update_bytes by auto. rewrite dbytes_app.
    destruct Hw as (A & B & C).
    assert (X := dbytes_wf p (ac_st c) (ac_off c) A B).
    destruct (dbytes (ac_st c) (ac_off c) p) as [[s1 o1] c1]. destruct X as (X1 & X2 & X3).
    destruct (IH (set_so c s1 o1) ip (conj X1 (conj X2 C)) H136) as (pts & I1 & I2 & I3).
    rewrite I1. simpl ac_st in *. simpl ac_off in *.
    destruct (dbytes s1 o1 (concat cts)) as [[s2 o2] c2]. simpl in I2.
    exists (c1 :: pts). split; [reflexivity|]. cbn [concat map]. rewrite I2, X3, I3. auto.
Qed.

(** Decryption of the ciphertext reaches the very state encryption reached. *)
Lemma enc_dec_stream : forall c pts cts ip, wf c -> (rate <= 136)%nat \/ ip = false ->
  let '(c', out) := enc_updates H c pts in
  concat cts = concat out ->
  exists dpts, dec_updates H c ip cts = Some (c', dpts) /\ concat dpts = concat pts.
Proof.
  intros c pts cts ip Hw H136.
  assert (E := enc_updates_bytes pts c Hw). destruct (enc_updates H c pts) as [c' out].
  destruct Hw as (A & B & C).
  assert (X := ebytes_inv (concat pts) (ac_st c) (ac_off c) A B).
  destruct (ebytes (ac_st c) (ac_off c) (concat pts)) as [[s o] ct].
  destruct E as (E1 & E2 & E3). destruct X as (X1 & X2 & X3 & X4).
  intros Hc. destruct (dec_updates_bytes cts c ip (conj A (conj B C)) H136) as (dpts & D1 & D2 & _).
  rewrite Hc, E2, X1 in D1, D2. exists dpts. subst c'. split; auto.
Qed.

(** * Blocks *)
Lemma ebytes_block : forall c r s, length s = L -> length c = rate -> r <> [] ->
  ebytes s 0 (c ++ r) =
  let '(s2, o2, ct) := ebytes (Pb (xor_at s 0 c)) 0 r in (s2, o2, slice (xor_at s 0 c) 0 rate ++ ct).
Proof.
  intros c r s Hs Hc Hr. rewrite ebytes_app, ebytes_run by lia. rewrite Hc. simpl Nat.add.
  destruct r as [|b r]; [congruence|]. rewrite ebytes_wrap. reflexivity.
Qed.
End Machine.
