(** * The canonicity test for encoded points (ge25519_is_canonical) *)
From Coq Require Import ZArith List Lia Bool.
From Verif Require Import X25519Spec Curve25519Model Curve25519Proof Curve25519Bytes ScModel ScProof ScTop.
Import ListNotations.
Open Scope Z_scope.

Lemma le_max : forall l, Forall byteZ l ->
  le l <= 256 ^ Z.of_nat (length l) - 1 /\ (le l = 256 ^ Z.of_nat (length l) - 1 <-> Forall (fun x => x = 255) l).
Proof.
  induction 1 as [|x l Hx Hl IH]; [cbn; split; [lia|split; [constructor|reflexivity]]|].
  cbn [le length]. rewrite Nat2Z.inj_succ, Z.pow_succ_r by lia. destruct IH as [I1 I2]. unfold byteZ in Hx.
  split; [lia|]. split.
  - intros E. constructor; [lia|]. apply I2. lia.
  - intros F. inversion F; subst. apply I2 in H2. lia.
Qed.

Lemma fold_lor : forall s (F : Forall byteZ s) l c, byteZ c -> Forall (fun i => (i < length s)%nat) l ->
  let r := fold_left (fun c i => Z.lor c (Z.lxor (nth i s 0) 255)) l c in
  byteZ r /\ (r = 0 <-> c = 0 /\ Forall (fun i => nth i s 0 = 255) l).
Proof.
  intros s F l. induction l as [|i l IH]; intros c Hc Hl; cbn [fold_left].
  - split; [exact Hc|]. split; [intros ->; split; [reflexivity|constructor]|tauto].
  - inversion Hl as [|? ? Hi Hl']; subst.
    assert (Bi : byteZ (nth i s 0)) by (apply (proj1 (Forall_forall _ _) F), nth_In, Hi).
    assert (B : byteZ (Z.lor c (Z.lxor (nth i s 0) 255))).
    { apply byte_lor; [exact Hc|]. apply byte_lxor; [exact Bi|unfold byteZ; lia]. }
    destruct (IH _ B Hl') as [I1 I2]. split; [exact I1|]. rewrite I2, Z.lor_eq_0_iff.
    split.
    + intros [[-> E] H]. split; [reflexivity|]. constructor; [|exact H]. now apply Z.lxor_eq in E.
    + intros [-> H]. inversion H; subst. rewrite H2. repeat split; auto.
Qed.

Theorem ge_canonical_ok : forall s, length s = 32%nat -> Forall byteZ s ->
  ge_is_canonical s = if decode_u s <? p25519 then 1 else 0.
Proof.
  intros s L H. unfold ge_is_canonical, decode_u. cbv zeta.
  destruct s as [|s0 t]; [discriminate|].
  assert (Lt : length t = 31%nat) by (cbn [length] in L; lia).
  inversion H as [|? ? B0 Bt]; subst.
  assert (T : t = firstn 30 t ++ [nth 30 t 0]).
  { do 31 (destruct t as [|? t]; [discriminate Lt|]). destruct t; [reflexivity|discriminate Lt]. }
  set (m := firstn 30 t) in *. set (h := nth 30 t 0) in *.
  assert (Lm : length m = 30%nat) by (unfold m; rewrite firstn_length; lia).
  assert (Bm : Forall byteZ m) by (apply Forall_firstn, Bt).
  assert (Bh : byteZ h) by (apply (proj1 (Forall_forall _ _) Bt), nth_In; lia).
  change (nth 31 (s0 :: t) 0) with h. change (nth 0 (s0 :: t) 0) with s0.
  assert (E31 : Z.land h 127 = h mod 128) by apply (Z.land_ones h 7 ltac:(lia)). rewrite E31.
  set (h7 := h mod 128). assert (R7 : 0 <= h7 < 128) by (apply Z.mod_pos_bound; lia).
  destruct (fold_lor (s0 :: t) H (rev (seq 1 30)) (Z.lxor h7 127)) as [C1 C2].
  { apply byte_lxor; unfold byteZ; lia. }
  { apply Forall_forall. intros i Hi. apply in_rev in Hi. apply in_seq in Hi. cbn [length]. lia. }
  cbv zeta in C1, C2. set (c := fold_left _ _ _) in *.
  assert (MF : Forall (fun i => nth i (s0 :: t) 0 = 255) (rev (seq 1 30)) <-> Forall (fun x => x = 255) m).
  { clear - Lt. unfold m. rewrite !Forall_forall. split.
    - intros Q x Hx. apply (In_nth _ _ 0) in Hx. destruct Hx as (i & Hi & <-). rewrite firstn_length in Hi.
      assert (I : In (S i) (rev (seq 1 30))) by (rewrite <- in_rev; apply in_seq; lia).
      specialize (Q _ I). cbn [nth] in Q. rewrite <- Q. rewrite <- (firstn_skipn 30 t) at 2.
      rewrite app_nth1 by (rewrite firstn_length; lia). reflexivity.
    - intros Q i Hi. rewrite <- in_rev in Hi. apply in_seq in Hi. destruct i as [|i]; [lia|]. cbn [nth].
      apply Q. rewrite <- (firstn_skipn 30 t) at 1. rewrite app_nth1 by (rewrite firstn_length; lia).
      apply nth_In. rewrite firstn_length. lia. }
  assert (V : le (s0 :: t) mod 2 ^ 255 = s0 + 256 * (le m + 256 ^ 30 * h7)).
  { cbn [le]. rewrite T at 1. rewrite le_app, Lm. cbn [le]. change (256 ^ Z.of_nat 30) with (256 ^ 30).
    unfold h7. rewrite (Z.mod_eq h 128) by lia.
    pose proof (le_nonneg m Bm) as Q. rewrite Lm in Q. change (256 ^ Z.of_nat 30) with (256 ^ 30) in Q.
    symmetry. apply Z.mod_unique with (q := h / 128).
    - left. pose proof (Z.mod_pos_bound h 128 ltac:(lia)). rewrite Z.mod_eq in H0 by lia. unfold byteZ in B0. 
      set (W := 256 ^ 30) in *. assert (EW : 2 ^ 255 = 256 * (W * 128)) by reflexivity. rewrite EW.
      assert (0 < W) by reflexivity. clearbody W. set (g := h - 128 * (h / 128)) in *. nia.
    - change (2 ^ 255) with (256 * (256 ^ 30 * 128)). ring. }
  rewrite V. destruct (le_max m Bm) as [M1 M2]. rewrite Lm in M1, M2. change (256 ^ Z.of_nat 30) with (256 ^ 30) in M1, M2.
  pose proof (le_nonneg m Bm) as [M0 _].
  unfold byteZ in *.
  assert (CC : Z.land (Z.shiftr ((c - 1) mod 4294967296) 8 mod 256) 1 = if c =? 0 then 1 else 0).
  { destruct (Z.eqb_spec c 0) as [->|N]; [reflexivity|]. rewrite (Z.mod_small (c - 1)) by lia.
    rewrite Z.shiftr_div_pow2 by lia. change (2 ^ 8) with 256. rewrite (Z.div_small (c - 1)) by lia. reflexivity. }
  assert (DD : Z.land (Z.shiftr ((237 - 1 - s0) mod 4294967296) 8 mod 256) 1 = if 237 <=? s0 then 1 else 0).
  { destruct (Z.leb_spec 237 s0).
    - assert (E : (237 - 1 - s0) mod 4294967296 = 4294967296 - (s0 - 236)).
      { symmetry. apply Z.mod_unique with (q := -1); lia. }
      rewrite E, Z.shiftr_div_pow2 by lia. change (2 ^ 8) with 256.
      assert (E2 : (4294967296 - (s0 - 236)) / 256 = 16777215) by (symmetry; apply Z.div_unique with (r := 256 - (s0 - 236)); lia).
      rewrite E2. reflexivity.
    - rewrite (Z.mod_small (237 - 1 - s0)) by lia. rewrite Z.shiftr_div_pow2 by lia. change (2 ^ 8) with 256. rewrite (Z.div_small (237 - 1 - s0)) by lia. reflexivity. }
  rewrite <- Z.land_assoc, DD.
  assert (EE : Z.land (Z.shiftr ((c - 1) mod 4294967296) 8 mod 256) (if 237 <=? s0 then 1 else 0) =
               if (c =? 0) && (237 <=? s0) then 1 else 0).
  { destruct (237 <=? s0); [rewrite CC, andb_true_r; reflexivity|rewrite Z.land_0_r, andb_false_r; reflexivity]. }
  rewrite EE.
  assert (X7 : Z.lxor h7 127 = 0 <-> h7 = 127).
  { split; [intros E; now apply Z.lxor_eq in E|intros ->; reflexivity]. }
  rewrite MF, X7, <- M2 in C2.
  set (W := 256 ^ 30) in *. assert (EP : p25519 = 256 * (W * 128) - 19) by reflexivity. rewrite EP.
  assert (W > 0) by reflexivity. clearbody W c h7.
  destruct (Z.eqb_spec c 0) as [E|E]; cbn [andb].
  - apply C2 in E. destruct E as [E1 E2]. rewrite E1, E2.
    destruct (Z.leb_spec 237 s0); destruct (Z.ltb_spec (s0 + 256 * (W - 1 + W * 127)) (256 * (W * 128) - 19)); try reflexivity; lia.
  - destruct (Z.ltb_spec (s0 + 256 * (le m + W * h7)) (256 * (W * 128) - 19)); [reflexivity|].
    exfalso. apply E. apply C2. assert (h7 = 127) by nia. subst h7. split; [reflexivity|]. nia.
Qed.
