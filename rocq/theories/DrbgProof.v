(** Hash DRBG and HMAC DRBG code = SP 800-90A, for every hash satisfying [hash_ok]. *)
From Verif Require Import Bytes Words HashIface MacSpec MacModel MacProof DrbgSpec DrbgModel.

(** ** big endian addition *)
Lemma land255 : forall x, 0 <= x -> Z.land x 255 = x mod 256.
Proof. intros x Hx. change 255 with (Z.ones 8). rewrite Z.land_ones by lia. reflexivity. Qed.
Lemma shr8 : forall x, Z.shiftr x 8 = x / 256.
Proof. intros x. rewrite Z.shiftr_div_pow2 by lia. reflexivity. Qed.

Lemma add_hi_ok : forall d r, bytes d -> 0 <= r <= 1 ->
  bytes (add_hi d r) /\ length (add_hi d r) = length d /\
  le_val (add_hi d r) = (le_val d + r) mod 256 ^ Z.of_nat (length d).
Proof.
  induction d as [|y d IH]; intros r Hd Hr.
  - cbn. rewrite Z.mod_1_r. repeat split; auto.
  - inversion Hd as [|? ? Hy Hd']; subst. cbn [add_hi].
    pose proof (le_val_bound (y :: d) Hd) as HB.
    destruct (Z.ltb_spec 0 r).
    + assert (r = 1) by lia. subst r. unfold byte in Hy. rewrite land255, shr8 by lia.
      assert (Hq : 0 <= (y + 1) / 256 <= 1).
      { split; [apply Z.div_pos; lia|]. apply Z.div_le_upper_bound; lia. }
      destruct (IH ((y + 1) / 256) Hd' Hq) as (B & L & V).
      split; [|split].
      * constructor; auto. unfold byte. apply Z.mod_pos_bound. lia.
      * cbn [length]. congruence.
      * cbn [le_val length]. rewrite V, pow256_S.
        rewrite <- (Z.mul_mod_distr_l _ _ 256) by (pose proof (pow256_pos (length d)); lia).
        rewrite (Z.rem_mul_r (y + 256 * le_val d + 1)) by (pose proof (pow256_pos (length d)); lia).
        replace (y + 256 * le_val d + 1) with (y + 1 + le_val d * 256) by lia.
        rewrite Z.mod_add, Z.div_add by lia.
        rewrite Z.mul_mod_distr_l by (pose proof (pow256_pos (length d)); lia).
        f_equal. f_equal. f_equal. lia.
    + assert (r = 0) by lia. subst r. rewrite Z.add_0_r, Z.mod_small by auto. auto.
Qed.

Lemma add_lo_ok : forall a d r, bytes d -> bytes a -> (length a <= length d)%nat -> 0 <= r <= 1 ->
  bytes (add_lo d a r) /\ length (add_lo d a r) = length d /\
  le_val (add_lo d a r) = (le_val d + le_val a + r) mod 256 ^ Z.of_nat (length d).
Proof.
  induction a as [|x a IH]; intros d r Hd Ha Hl Hr.
  - cbn [add_lo le_val]. rewrite Z.add_0_r. apply add_hi_ok; auto.
  - destruct d as [|y d]; [cbn in Hl; lia|]. cbn [add_lo].
    inversion Hd as [|? ? Hy Hd']; subst. inversion Ha as [|? ? Hx Ha']; subst. unfold byte in Hx, Hy.
    rewrite land255, shr8 by lia.
    assert (Hq : 0 <= (r + (y + x)) / 256 <= 1).
    { split; [apply Z.div_pos; lia|]. apply Z.lt_succ_r. apply Z.div_lt_upper_bound; lia. }
    destruct (IH d ((r + (y + x)) / 256) Hd' Ha' ltac:(cbn in Hl; lia) Hq) as (B & L & V).
    split; [|split].
    + constructor; auto. unfold byte. apply Z.mod_pos_bound. lia.
    + cbn [length]. congruence.
    + cbn [le_val length]. rewrite V, pow256_S.
      rewrite (Z.rem_mul_r (y + 256 * le_val d + (x + 256 * le_val a) + r)) by (pose proof (pow256_pos (length d)); lia).
      replace (y + 256 * le_val d + (x + 256 * le_val a) + r)
        with (r + (y + x) + (le_val d + le_val a) * 256) by lia.
      rewrite Z.mod_add, Z.div_add by lia.
      f_equal. f_equal. f_equal. lia.
Qed.

Lemma add_buf_ok : forall d a, bytes d -> bytes a -> (length a <= length d)%nat ->
  drbg_add_buf d a = add_seed (length d) d (be_val a).
Proof.
  intros d a Hd Ha Hl. unfold drbg_add_buf, add_seed, be_val, be_bytes.
  destruct (add_lo_ok (rev a) (rev d) 0 (bytes_rev _ Hd) (bytes_rev _ Ha) ltac:(rewrite !rev_length; auto) ltac:(lia))
    as (B & L & V).
  rewrite rev_length in L, V. f_equal. rewrite Z.add_0_r in V. rewrite <- V, <- L.
  symmetry. apply le_bytes_le_val; auto.
Qed.

Lemma add_seed_bytes : forall n V x, bytes (add_seed n V x).
Proof. intros. apply bytes_be_bytes. Qed.
Lemma add_seed_length : forall n V x, length (add_seed n V x) = n.
Proof. intros. apply length_be_bytes. Qed.
Lemma add_seed_add : forall n V x y, add_seed n (add_seed n V x) y = add_seed n V (x + y).
Proof.
  intros n V x y. unfold add_seed. rewrite be_val_be_bytes. f_equal.
  rewrite Z.mod_mod by (pose proof (pow256_pos n); lia).
  rewrite Zplus_mod_idemp_l. f_equal. lia.
Qed.
Lemma add_seed_0 : forall V, bytes V -> add_seed (length V) V 0 = V.
Proof.
  intros V HV. unfold add_seed. rewrite Z.add_0_r, Z.mod_small by (apply be_val_bound; auto).
  apply be_bytes_be_val; auto.
Qed.

Lemma ceil_div_ok : forall n b, (0 < b)%nat -> (n <= b * ceil_div n b)%nat.
Proof.
  intros n b Hb. unfold ceil_div.
  pose proof (Nat.div_mod (n + b - 1) b ltac:(lia)) as E. pose proof (Nat.mod_upper_bound (n + b - 1) b ltac:(lia)). lia.
Qed.
Lemma ceil_div_le : forall n b, (0 < b)%nat -> (b * ceil_div n b <= n + b - 1)%nat.
Proof. intros n b Hb. unfold ceil_div. apply Nat.mul_div_le. lia. Qed.

Lemma blk_step : forall (d X : list Z) bl n, length d = bl ->
  firstn (Nat.min bl n) d ++ firstn (n - Nat.min bl n) X = firstn n (d ++ X).
Proof.
  intros d X bl n Hd. rewrite firstn_app, Hd. f_equal.
  - destruct (Nat.le_ge_cases bl n).
    + rewrite Nat.min_l, !firstn_all2 by lia. reflexivity.
    + rewrite Nat.min_r by lia. reflexivity.
  - f_equal. lia.
Qed.

Section HashDrbgProof.
  Variable h : hashops.
  Variable wf : hctx h -> Prop.
  Variable H : list Z -> list Z.
  Variable maxlen : Z.
  Hypothesis OK : hash_ok h wf H maxlen.
  Variable sl : nat.
  Let bl := h_ds h.
  Hypothesis Hsl : (bl <= sl)%nat.
  Hypothesis Hsl8 : (8 <= sl)%nat.
  Hypothesis Hslm : (sl <= 255)%nat.

  Let max61 : 2 ^ 61 <= maxlen := ok_max _ _ _ _ OK.
  Let Hbl : (0 < bl)%nat := ok_ds _ _ _ _ OK.

  Lemma drbg_hash_ok : forall hc ms, wf hc -> Forall bytes ms -> Z.of_nat (length (concat ms)) < 2 ^ 61 ->
    exists hc', drbg_hash h hc ms = (H (concat ms), hc') /\ wf hc'.
  Proof.
    intros hc ms Hw Hb Hl. unfold drbg_hash.
    pose proof (ok_hash _ _ _ _ OK hc ms Hw Hb ltac:(lia)) as E.
    pose proof (ok_final _ _ _ _ OK (h_updates h (h_init h hc) ms)
                  (wf_updates h wf H maxlen OK ms _ (ok_init _ _ _ _ OK _ Hw))) as F.
    destruct (h_final h (h_updates h (h_init h hc) ms)) as [d hc']. cbn [fst snd] in *. subst d.
    exists hc'. auto.
  Qed.

  Lemma H_bytes : forall m, bytes m -> bytes (H m).
  Proof. apply (ok_bytes _ _ _ _ OK). Qed.
  Lemma H_length : forall m, length (H m) = bl.
  Proof. apply (ok_len _ _ _ _ OK). Qed.

  Lemma bytes_concat : forall ms, Forall bytes ms -> bytes (concat ms).
  Proof. induction 1; cbn [concat]; [constructor|apply bytes_app; auto]. Qed.

  Lemma df_loop_ok : forall fuel hc i hdr ent n N, wf hc -> bytes hdr -> Forall bytes ent ->
    length hdr = 4%nat -> Z.of_nat (length (concat ent)) < 2 ^ 60 ->
    (n <= fuel)%nat -> (n <= bl * N)%nat -> (i + N <= 256)%nat ->
    exists hc', df_loop h fuel hc (Z.of_nat i) hdr ent n =
      (firstn n (flat_map (fun j => H (be_bytes 1 (Z.of_nat j) ++ hdr ++ concat ent)) (seq i N)), hc') /\ wf hc'.
  Proof.
    induction fuel as [|f IH]; intros hc i hdr ent n N Hw Hh He Hhl Hel Hf HN Hi.
    - replace n with 0%nat by lia. exists hc. auto.
    - cbn [df_loop]. destruct (Nat.eqb_spec n 0) as [->|Hn]; [exists hc; auto|].
      destruct N as [|N]; [lia|]. cbn [seq flat_map].
      assert (Hbi : byte (Z.of_nat i)) by (unfold byte; lia).
      destruct (drbg_hash_ok hc ((Z.of_nat i :: hdr) :: ent) Hw) as (hc1 & E1 & W1).
      { constructor; auto. constructor; auto. }
      { cbn [concat]. rewrite app_length. cbn [length]. lia. }
      rewrite E1. fold bl.
      assert (Eu : (n - Nat.min bl n = 0)%nat \/ u8 (Z.of_nat i + 1) = Z.of_nat (S i)).
      { destruct (Nat.le_gt_cases n bl); [left; lia|right].
        unfold u8. rewrite Z.mod_small by nia. lia. }
      assert (E2 : exists hc', df_loop h f hc1 (u8 (Z.of_nat i + 1)) hdr ent (n - Nat.min bl n) =
        (firstn (n - Nat.min bl n) (flat_map (fun j => H (be_bytes 1 (Z.of_nat j) ++ hdr ++ concat ent)) (seq (S i) N)), hc') /\ wf hc').
      { destruct Eu as [Z0|Eu].
        - rewrite Z0. exists hc1. split; auto. destruct f; reflexivity.
        - rewrite Eu. apply IH; auto; try lia. }
      destruct E2 as (hc' & -> & W'). exists hc'. split; auto. f_equal.
      cbn [concat]. rewrite <- app_comm_cons.
      assert (E3 : be_bytes 1 (Z.of_nat i) ++ hdr ++ concat ent = Z.of_nat i :: hdr ++ concat ent).
      { unfold be_bytes. cbn [le_bytes rev app]. rewrite Z.mod_small by exact Hbi. reflexivity. }
      rewrite E3. apply blk_step. apply H_length.
  Qed.

  Lemma df_ok : forall hc ent, wf hc -> Forall bytes ent -> Z.of_nat (length (concat ent)) < 2 ^ 60 ->
    exists hc', drbg_hash_df h hc sl ent = (Hash_df H bl (concat ent) sl, hc') /\ wf hc'.
  Proof.
    intros hc ent Hw He Hl. unfold drbg_hash_df, Hash_df.
    replace (u32 (8 * Z.of_nat sl)) with (8 * Z.of_nat sl) by (unfold u32; rewrite Z.mod_small; lia).
    apply (df_loop_ok sl hc 1); auto using bytes_be_bytes, length_be_bytes, ceil_div_ok.
    pose proof (ceil_div_le sl bl Hbl). nia.
  Qed.

  Lemma Hash_df_length : forall x, length (Hash_df H bl x sl) = sl.
  Proof.
    intros x. unfold Hash_df. rewrite firstn_length.
    rewrite (flat_blocks_length (fun i => H (be_bytes 1 (Z.of_nat i) ++ be_bytes 4 (8 * Z.of_nat sl) ++ x)) bl)
      by (first [exact Hbl | intros; apply H_length]).
    pose proof (ceil_div_ok sl bl Hbl). lia.
  Qed.
  Lemma bytes_flat : forall (B : nat -> list Z) l, (forall i, bytes (B i)) -> bytes (flat_map B l).
  Proof. intros B l HB. induction l; cbn [flat_map]; [constructor|apply bytes_app; auto]. Qed.
  Lemma Hash_df_bytes : forall x, bytes x -> bytes (Hash_df H bl x sl).
  Proof.
    intros x Hx. unfold Hash_df. apply bytes_firstn, bytes_flat. intros i. apply H_bytes.
    apply bytes_app; [apply bytes_be_bytes|apply bytes_app; auto using bytes_be_bytes].
  Qed.

  (** The model context and the state of the standard. The counter of the code is one behind. *)
  Definition hrel (s : hdst h) (t : option hd_state) : Prop :=
    wf (hd_h h s) /\
    match t with
    | None => hd_seeded h s = false
    | Some t => hd_seeded h s = true /\ hd_V h s = S_V t /\ hd_C h s = S_C t /\ hd_ctr h s + 1 = S_ctr t /\
        0 <= hd_ctr h s /\
        length (S_V t) = sl /\ bytes (S_V t) /\ length (S_C t) = sl /\ bytes (S_C t)
    end.

  Lemma hupdate_ok : forall s t e p, hrel s t -> bytes e -> bytes p -> e <> [] ->
    Z.of_nat (length e) < 2 ^ 59 -> Z.of_nat (length p) <= 2 ^ 31 ->
    let s' := drbg_hash_update h sl s (e :: if (length p =? 0)%nat then [] else [p]) in
    hrel (mkHD h (hd_h h s') (hd_V h s') (hd_C h s') 0 true)
      (Some (match t with None => HD_instantiate H bl sl e p | Some t => HD_reseed H bl sl t e p end)).
  Proof.
    intros s t e p [Hw Ht] He Hp Hne Hle Hlp. cbn zeta. unfold drbg_hash_update.
    set (seed := e :: if (length p =? 0)%nat then [] else [p]).
    assert (Hsc : concat seed = e ++ p).
    { unfold seed. destruct p; cbn [length Nat.eqb concat]; rewrite ?app_nil_r; reflexivity. }
    assert (Hsb : Forall bytes seed).
    { unfold seed. constructor; auto. destruct (_ =? 0)%nat; constructor; auto. }
    set (data := if hd_seeded h s then [1] :: hd_V h s :: seed else seed).
    assert (D : Forall bytes data /\ Z.of_nat (length (concat data)) < 2 ^ 60 /\
        concat data = match t with None => e ++ p | Some t => [1] ++ S_V t ++ e ++ p end).
    { unfold data. destruct t as [t|].
      - destruct Ht as (-> & HV & _ & _ & _ & HlV & HbV & _). rewrite HV. split; [|split].
        + constructor; [constructor; [unfold byte; lia|constructor]|]. constructor; auto.
        + cbn [concat]. rewrite !app_length, Hsc, app_length, HlV. cbn [length]. lia.
        + cbn [concat]. rewrite Hsc. reflexivity.
      - rewrite Ht. split; auto. rewrite Hsc. split; auto. rewrite app_length. lia. }
    destruct D as (D1 & D2 & D3). clearbody data.
    destruct (df_ok (hd_h h s) data Hw D1 D2) as (hc1 & -> & W1).
    set (V := Hash_df H bl (concat data) sl).
    assert (HV : bytes V) by (apply Hash_df_bytes, bytes_concat; auto).
    assert (HVl : length V = sl) by apply Hash_df_length.
    assert (E0 : Forall bytes [[0]; V]).
    { constructor; [constructor; [unfold byte; lia|constructor]|]. constructor; auto. }
    destruct (df_ok hc1 [[0]; V] W1 E0) as (hc2 & -> & W2).
    { cbn [concat]. rewrite app_nil_r, app_length. cbn [length]. lia. }
    cbn [concat hd_h hd_V hd_C hd_ctr hd_seeded]. rewrite app_nil_r.
    assert (R : hrel (mkHD h hc2 V (Hash_df H bl ([0] ++ V) sl) 0 true)
                  (Some (mkHDS V (Hash_df H bl ([0] ++ V) sl) 1))).
    { split; [exact W2|]. cbn [hd_seeded hd_V hd_C hd_ctr S_V S_C S_ctr].
      repeat split; auto; try lia.
      - apply Hash_df_length.
      - apply Hash_df_bytes. apply bytes_app; auto. constructor; [unfold byte; lia|constructor]. }
    unfold V in *. rewrite D3 in *. destruct t as [t|]; exact R.
  Qed.

  Lemma hashgen_loop_ok : forall fuel hc V i n N, wf hc -> bytes V -> length V = sl ->
    (n <= fuel)%nat -> (n <= bl * N)%nat ->
    exists hc', hashgen_loop h fuel hc (add_seed sl V (Z.of_nat i)) n =
      (firstn n (flat_map (fun j => H (add_seed sl V (Z.of_nat j))) (seq i N)), hc') /\ wf hc'.
  Proof.
    induction fuel as [|f IH]; intros hc V i n N Hw HV HlV Hf HN.
    - replace n with 0%nat by lia. exists hc. auto.
    - cbn [hashgen_loop]. destruct (Nat.eqb_spec n 0) as [->|Hn]; [exists hc; auto|].
      destruct N as [|N]; [lia|]. cbn [seq flat_map].
      assert (Ea : Forall bytes [add_seed sl V (Z.of_nat i)]).
      { constructor; [apply add_seed_bytes|constructor]. }
      destruct (drbg_hash_ok hc [add_seed sl V (Z.of_nat i)] Hw Ea) as (hc1 & -> & W1).
      { cbn [concat]. rewrite app_nil_r, add_seed_length. lia. }
      cbn [concat]. rewrite app_nil_r. fold bl.
      replace (if (bl <? n)%nat then bl else n) with (Nat.min bl n) by (destruct (Nat.ltb_spec bl n); lia).
      assert (E2 : exists hc', hashgen_loop h f hc1
          (if (0 <? n - Nat.min bl n)%nat then drbg_add_buf (add_seed sl V (Z.of_nat i)) [1] else add_seed sl V (Z.of_nat i))
          (n - Nat.min bl n) =
        (firstn (n - Nat.min bl n) (flat_map (fun j => H (add_seed sl V (Z.of_nat j))) (seq (S i) N)), hc') /\ wf hc').
      { destruct (Nat.ltb_spec 0 (n - Nat.min bl n)).
        - rewrite add_buf_ok; [|apply add_seed_bytes|constructor; [unfold byte; lia|constructor]|
                               rewrite add_seed_length; cbn [length]; lia].
          rewrite add_seed_length. change (be_val [1]) with 1. rewrite add_seed_add.
          replace (Z.of_nat i + 1) with (Z.of_nat (S i)) by lia. apply IH; auto; lia.
        - replace (n - Nat.min bl n)%nat with 0%nat by lia. exists hc1. split; auto. destruct f; reflexivity. }
      destruct E2 as (hc' & -> & W'). exists hc'. split; auto. f_equal. apply blk_step, H_length.
  Qed.

  Lemma hgenerate_ok : forall s t a n, hrel s (Some t) -> bytes a -> Z.of_nat (length a) <= 2 ^ 31 ->
    S_ctr t < 2 ^ 64 ->
    exists s', drbg_hash_generate_internal h s a n = (fst (HD_generate H bl sl t a n), s') /\
      hrel s' (Some (snd (HD_generate H bl sl t a n))).
  Proof.
    intros s t a n [Hw (Hsd & HV & HC & Hctr & Hc0 & HlV & HbV & HlC & HbC)] Ha Hla Hcl.
    unfold drbg_hash_generate_internal, HD_generate. cbn [hd_h hd_V hd_C hd_ctr hd_seeded].
    replace (u64 (hd_ctr h s + 1)) with (S_ctr t)
      by (unfold u64; rewrite Hctr, Z.mod_small; lia).
    set (V := match a with [] => S_V t | _ :: _ => add_seed sl (S_V t) (be_val (H ([2] ++ S_V t ++ a))) end).
    assert (EV : exists hc, drbg_hash_process_addtl h (mkHD h (hd_h h s) (hd_V h s) (hd_C h s) (S_ctr t) (hd_seeded h s)) a
                 = mkHD h hc V (S_C t) (S_ctr t) true /\ wf hc).
    { unfold drbg_hash_process_addtl. cbn [hd_h hd_V hd_C hd_ctr hd_seeded]. rewrite HV, HC, Hsd.
      destruct a as [|a0 a']; [exists (hd_h h s); auto|]. cbn [length Nat.eqb].
      set (a := a0 :: a') in *.
      assert (F : Forall bytes [[2]; S_V t; a]).
      { constructor; [constructor; [unfold byte; lia|constructor]|]. repeat (constructor; auto). }
      destruct (drbg_hash_ok (hd_h h s) [[2]; S_V t; a] Hw F) as (hc1 & -> & W1).
      { cbn [concat]. rewrite app_nil_r, !app_length, HlV. cbn [length]. lia. }
      exists hc1. split; auto. cbn [concat]. rewrite app_nil_r.
      rewrite add_buf_ok; auto.
      - rewrite HlV. reflexivity.
      - apply H_bytes. apply bytes_app; [constructor; [unfold byte; lia|constructor]|apply bytes_app; auto].
      - rewrite H_length. lia. }
    destruct EV as (hc & -> & W). cbn [hd_h hd_V hd_C hd_ctr hd_seeded].
    assert (HVb : bytes V) by (unfold V; destruct a; auto; apply add_seed_bytes).
    assert (HVl : length V = sl) by (unfold V; destruct a; auto; apply add_seed_length).
    destruct (hashgen_loop_ok n hc V 0 n (ceil_div n bl) W HVb HVl (le_n _) (ceil_div_ok n bl Hbl)) as (hc1 & E1 & W1).
    assert (V0 : add_seed sl V 0 = V) by (rewrite <- HVl; apply add_seed_0; auto).
    change (Z.of_nat 0) with 0 in E1. rewrite V0 in E1. rewrite E1. clear E1.
    assert (F : Forall bytes [[3]; V]).
    { constructor; [constructor; [unfold byte; lia|constructor]|]. repeat (constructor; auto). }
    destruct (drbg_hash_ok hc1 [[3]; V] W1 F) as (hc2 & -> & W2).
    { cbn [concat]. rewrite app_nil_r, app_length, HVl. cbn [length]. lia. }
    cbn [concat]. rewrite app_nil_r. cbn [fst snd].
    assert (B3 : bytes (H ([3] ++ V))).
    { apply H_bytes, bytes_app; auto. constructor; [unfold byte; lia|constructor]. }
    rewrite (add_buf_ok V (H ([3] ++ V))) by (auto; rewrite H_length; lia). rewrite HVl.
    rewrite (add_buf_ok (add_seed sl V (be_val (H ([3] ++ V)))) (S_C t)); [|apply add_seed_bytes|exact HbC|rewrite add_seed_length; lia].
    rewrite add_seed_length, add_seed_add.
    rewrite add_buf_ok; [|apply add_seed_bytes|apply bytes_be_bytes|rewrite add_seed_length, length_be_bytes; lia].
    rewrite add_seed_length, add_seed_add, be_val_be_bytes.
    rewrite (Z.mod_small (S_ctr t)) by (change (256 ^ Z.of_nat 8) with (2 ^ 64); lia).
    eexists. split; [reflexivity|].
    split; [exact W2|]. cbn [hd_seeded hd_V hd_C hd_ctr S_V S_C S_ctr].
    repeat split; auto; try lia; [apply add_seed_length|apply add_seed_bytes].
  Qed.

  Definition req_good (r : drbg_req) : Prop :=
    match r with
    | RSeed e p => bytes e /\ bytes p /\ Z.of_nat (length e) < 2 ^ 59
    | RGen a _ => bytes a
    end.

  Definition ctr_le (t : option hd_state) (k : Z) : Prop :=
    match t with None => False | Some t => S_ctr t <= k end.

  Lemma hstep_ok : forall s t r k, hrel s t -> ctr_le t k -> k <= 2 ^ 48 -> 1 <= k -> req_good r ->
    exists rc o s' t', hash_drbg_step h sl s r = (rc, o, s') /\ HD_step H bl sl t r = (rc, o, t') /\
      hrel s' t' /\ ctr_le t' (k + 1).
  Proof.
    intros s t r k HR Hk Hk48 Hk1 Hg. destruct t as [t|]; [|destruct Hk]. cbn [ctr_le] in Hk.
    destruct r as [e p|a n]; cbn [hash_drbg_step HD_step].
    - destruct Hg as (He & Hp & Hl). unfold max_addtl.
      destruct (Z.ltb_spec (2 ^ 31) (Z.of_nat (length p))); cbn [orb].
      { do 4 eexists. repeat split; eauto. all: try apply HR. cbn [ctr_le]. lia. }
      destruct (Nat.eqb_spec (length e) 0) as [E|E].
      { do 4 eexists. repeat split; eauto. all: try apply HR. cbn [ctr_le]. lia. }
      do 4 eexists. split; [reflexivity|]. split; [reflexivity|]. split.
      + apply (hupdate_ok s (Some t) e p HR He Hp); auto. intros ->. apply E. reflexivity.
      + cbn. lia.
    - unfold max_request, max_addtl, reseed_interval. cbn in Hg.
      rewrite (proj2 (Z.ltb_ge (2 ^ 48) (S_ctr t))) by lia. rewrite orb_false_r.
      destruct (Z.ltb_spec (2 ^ 16) (Z.of_nat n)); cbn [orb].
      { do 4 eexists. repeat split; eauto. all: try apply HR. cbn [ctr_le]. lia. }
      destruct (Z.ltb_spec (2 ^ 31) (Z.of_nat (length a))).
      { do 4 eexists. repeat split; eauto. all: try apply HR. cbn [ctr_le]. lia. }
      destruct (hgenerate_ok s t a n HR Hg ltac:(lia) ltac:(lia)) as (s' & -> & R').
      destruct (HD_generate H bl sl t a n) as [o t'] eqn:E. cbn [fst snd] in *.
      do 4 eexists. split; [reflexivity|]. split; [reflexivity|]. split; [exact R'|].
      cbn [ctr_le]. unfold HD_generate in E. injection E as _ <-. cbn [S_ctr]. lia.
  Qed.

  Lemma hrun_ok : forall rs s t k, hrel s t -> ctr_le t k -> 1 <= k -> k + Z.of_nat (length rs) <= 2 ^ 48 + 1 ->
    Forall req_good rs ->
    fst (run_reqs (hash_drbg_step h sl) s rs) = fst (run_reqs (HD_step H bl sl) t rs) /\
    hrel (snd (run_reqs (hash_drbg_step h sl) s rs)) (snd (run_reqs (HD_step H bl sl) t rs)).
  Proof.
    induction rs as [|r rs IH]; intros s t k HR Hk Hk1 Hl Hg; [auto|].
    inversion Hg; subst. cbn [run_reqs length] in *.
    destruct (hstep_ok s t r k HR Hk ltac:(lia) Hk1 ltac:(assumption)) as (rc & o & s' & t' & -> & -> & R' & K').
    specialize (IH s' t' (k + 1) R' K' ltac:(lia) ltac:(lia) ltac:(assumption)).
    destruct (run_reqs (hash_drbg_step h sl) s' rs) as [l s2].
    destruct (run_reqs (HD_step H bl sl) t' rs) as [l' t2]. cbn [fst snd] in *.
    destruct IH as [-> IH]. auto.
  Qed.

  (** From a zeroed context, any sequence of requests beginning with a seed request the code accepts. *)
  Lemma hash_drbg_ok : forall hc e p rs, wf hc -> req_good (RSeed e p) -> e <> [] -> Z.of_nat (length p) <= 2 ^ 31 ->
    Z.of_nat (length rs) <= 2 ^ 48 -> Forall req_good rs ->
    let m := run_reqs (hash_drbg_step h sl) (hash_drbg_zero h sl hc) (RSeed e p :: rs) in
    let s := run_reqs (HD_step H bl sl) None (RSeed e p :: rs) in
    fst m = fst s /\
    exists t, snd s = Some t /\ hd_V h (snd m) = S_V t /\ hd_C h (snd m) = S_C t /\ hd_ctr h (snd m) + 1 = S_ctr t.
  Proof.
    intros hc e p rs Hw (He & Hp & Hl) Hne Hlp Hlen Hg. cbn zeta. cbn [run_reqs hash_drbg_step HD_step].
    unfold max_addtl. rewrite (proj2 (Z.ltb_ge (2 ^ 31) (Z.of_nat (length p)))) by lia. cbn [orb].
    replace (length e =? 0)%nat with false by (destruct e; [congruence|reflexivity]).
    pose proof (hupdate_ok (hash_drbg_zero h sl hc) None e p (conj Hw eq_refl) He Hp Hne Hl Hlp) as R. cbn zeta in R.
    set (s1 := mkHD h _ _ _ 0 true) in *. set (t1 := HD_instantiate H bl sl e p) in *.
    destruct (hrun_ok rs s1 (Some t1) 1 R ltac:(cbn; lia) ltac:(lia) ltac:(lia) Hg) as [E R2].
    destruct (run_reqs (hash_drbg_step h sl) s1 rs) as [l s2].
    destruct (run_reqs (HD_step H bl sl) (Some t1) rs) as [l' t2] eqn:ET. cbn [fst snd] in *.
    split; [congruence|].
    assert (X : forall rs t, exists t', snd (run_reqs (HD_step H bl sl) (Some t) rs) = Some t').
    { clear. induction rs as [|r rs IH]; intros t; [exists t; reflexivity|]. cbn [run_reqs].
      assert (S : exists rc o t', HD_step H bl sl (Some t) r = (rc, o, Some t')).
      { destruct r; cbn [HD_step]; [destruct (_ || _)|destruct (_ || _ || _)]; eauto.
        destruct (HD_generate H bl sl t addtl n); eauto. }
      destruct S as (rc & o & t' & ->). destruct (IH t') as [t'' E].
      destruct (run_reqs (HD_step H bl sl) (Some t') rs). exists t''. exact E. }
    destruct (X rs t1) as [t' Et']. rewrite ET in Et'. cbn [snd] in Et'. subst t2.
    exists t'. split; [reflexivity|]. destruct R2 as [_ (_ & -> & -> & -> & _)]. auto.
  Qed.
End HashDrbgProof.

Section HmacDrbgProof.
  Variable h : hashops.
  Variable wf : hctx h -> Prop.
  Variable H : list Z -> list Z.
  Variable maxlen : Z.
  Hypothesis OK : hash_ok h wf H maxlen.
  Let bs := h_bs h.
  Let sl := h_ds h.
  Let MAC := HMAC H bs.
  Let max61 : 2 ^ 61 <= maxlen := ok_max _ _ _ _ OK.
  Let Hsl : (0 < sl)%nat := ok_ds _ _ _ _ OK.
  Let Hsl64 : (sl <= 64)%nat := ok_ds64 _ _ _ _ OK.
  Let Hbs : (bs <= 144)%nat := ok_bs _ _ _ _ OK.

  Lemma drbg_hmac_ok : forall c K ms, wf (hm_h h c) -> bytes K -> length K = sl -> Forall bytes ms ->
    Z.of_nat (length (concat ms)) < 2 ^ 60 ->
    exists c', drbg_hmac h c K ms = (MAC K (concat ms), c') /\ wf (hm_h h c').
  Proof.
    intros c K ms Hw HK HlK Hm Hl. unfold drbg_hmac.
    pose proof (init_st h wf H maxlen OK K c Hw HK ltac:(lia)) as I.
    pose proof (updates_st h wf H ms K _ [] I Hm) as U.
    destruct (final_st h wf H maxlen OK K _ _ U) as (c' & E & KK).
    { cbn [app]. fold bs. lia. }
    exists c'. split; [exact E|]. destruct KK as (W & _). exact W.
  Qed.

  Lemma MACb : forall K m, bytes K -> bytes m -> bytes (MAC K m).
  Proof. exact (MAC_bytes h wf H maxlen OK). Qed.
  Lemma MACl : forall K m, length (MAC K m) = sl.
  Proof. exact (MAC_length h wf H maxlen OK). Qed.

  Lemma round_ok : forall c C V b seed, wf (hm_h h c) -> bytes C -> length C = sl -> bytes V -> length V = sl ->
    byte b -> Forall bytes seed -> Z.of_nat (length (concat seed)) < 2 ^ 59 ->
    let K := MAC C (V ++ [b] ++ concat seed) in
    exists c', hmd_round h c C V b seed = (K, MAC K V, c') /\ wf (hm_h h c').
  Proof.
    intros c C V b seed Hw HC HlC HV HlV Hb Hs Hl. cbn zeta. unfold hmd_round.
    destruct (drbg_hmac_ok c C (V :: [b] :: seed) Hw HC HlC) as (c1 & -> & W1).
    { constructor; auto. constructor; auto. constructor; [exact Hb|constructor]. }
    { cbn [concat]. rewrite !app_length. cbn [length]. lia. }
    set (K := MAC C (concat (V :: [b] :: seed))).
    assert (HK : bytes K).
    { apply MACb; auto. cbn [concat]. apply bytes_app; auto. apply bytes_app; [constructor; [exact Hb|constructor]|].
      clear - Hs. induction Hs; cbn [concat]; [constructor|apply bytes_app; auto]. }
    destruct (drbg_hmac_ok c1 K [V] W1 HK (MACl _ _)) as (c2 & -> & W2).
    { constructor; auto. }
    { cbn [concat]. rewrite app_nil_r. lia. }
    exists c2. split; auto. cbn [concat]. rewrite app_nil_r. unfold K. cbn [concat]. reflexivity.
  Qed.

  Definition mrel (s : hmdst h) (t : option hmd_state) : Prop :=
    wf (hm_h h (hmd_h h s)) /\
    match t with
    | None => hmd_seeded h s = false /\ hmd_C h s = zeros sl
    | Some t => hmd_seeded h s = true /\ hmd_V h s = S_V' t /\ hmd_C h s = S_K t /\
        length (S_V' t) = sl /\ bytes (S_V' t) /\ length (S_K t) = sl /\ bytes (S_K t)
    end.

  Lemma update_length : forall pd K V, length (fst (HMD_update H bs pd K V)) = sl /\ length (snd (HMD_update H bs pd K V)) = sl.
  Proof. intros pd K V. unfold HMD_update. destruct pd; cbn [fst snd]; split; apply MACl. Qed.
  Lemma update_bytes : forall pd K V, bytes pd -> bytes K -> bytes V ->
    bytes (fst (HMD_update H bs pd K V)) /\ bytes (snd (HMD_update H bs pd K V)).
  Proof.
    intros pd K V Hp HK HV. unfold HMD_update.
    assert (B : forall b K V pd, byte b -> bytes K -> bytes V -> bytes pd -> bytes (MAC K (V ++ [b] ++ pd))).
    { intros. apply MACb; auto. apply bytes_app; auto. apply bytes_app; auto. constructor; [auto|constructor]. }
    assert (byte 0 /\ byte 1) as [Z0 Z1] by (unfold byte; lia).
    destruct pd; cbn [fst snd]; split; repeat (first [apply B | apply MACb]; auto).
  Qed.

  Lemma mupdate_ok : forall c V0 C sd V seed, wf (hm_h h c) -> bytes C -> length C = sl -> bytes V -> length V = sl ->
    (V = if sd : bool then V0 else repeat 1 sl) ->
    match seed with None => True | Some l => Forall bytes l /\ Z.of_nat (length (concat l)) < 2 ^ 59 /\ concat l <> [] end ->
    let pd := match seed with None => [] | Some l => concat l end in
    exists c', drbg_hmac_update h (mkHMD h c V0 C sd) seed =
      mkHMD h c' (snd (HMD_update H bs pd C V)) (fst (HMD_update H bs pd C V)) sd /\ wf (hm_h h c').
  Proof.
    intros c V0 C sd V seed Hw HC HlC HV HlV EV Hs. cbn zeta. unfold drbg_hmac_update.
    cbn [hmd_h hmd_V hmd_C hmd_seeded]. fold sl. rewrite <- EV.
    assert (byte 0 /\ byte 1) as [Z0 Z1] by (unfold byte; lia).
    destruct seed as [l|].
    - destruct Hs as (Hb & Hl & Hne).
      destruct (round_ok c C V 0 l Hw HC HlC HV HlV Z0 Hb Hl) as (c1 & -> & W1).
      set (K := MAC C (V ++ [0] ++ concat l)).
      assert (HK : bytes K).
      { apply MACb; auto. apply bytes_app; auto. apply bytes_app; [constructor; [exact Z0|constructor]|].
        clear - Hb. induction Hb; cbn [concat]; [constructor|apply bytes_app; auto]. }
      destruct (round_ok c1 K (MAC K V) 1 l W1 HK (MACl _ _) (MACb _ _ HK HV) (MACl _ _) Z1 Hb Hl) as (c2 & -> & W2).
      exists c2. split; auto. subst K. unfold HMD_update. destruct (concat l) eqn:E; [congruence|reflexivity].
    - destruct (round_ok c C V 0 [] Hw HC HlC HV HlV Z0 (Forall_nil _) ltac:(cbn; lia)) as (c1 & -> & W1).
      exists c1. split; auto.
  Qed.

  Lemma mloop_ok : forall fuel c C V i n N, wf (hm_h h c) -> bytes C -> length C = sl -> bytes V -> length V = sl ->
    (n <= fuel)%nat -> (n <= sl * N)%nat -> (sl * N < n + sl)%nat ->
    exists c', hmd_loop h fuel c C (Vi H bs C V i) n =
      (firstn n (flat_map (Vi H bs C V) (seq (S i) N)), Vi H bs C V (i + N), c') /\ wf (hm_h h c').
  Proof.
    induction fuel as [|f IH]; intros c C V i n N Hw HC HlC HV HlV Hf HN HN2.
    - replace n with 0%nat in * by lia. assert (N = 0)%nat as -> by nia. rewrite Nat.add_0_r. exists c. auto.
    - cbn [hmd_loop]. destruct (Nat.eqb_spec n 0) as [->|Hn].
      { assert (N = 0)%nat as -> by nia. rewrite Nat.add_0_r. exists c. auto. }
      destruct N as [|N]; [lia|]. cbn [seq flat_map].
      assert (HVi : forall i, bytes (Vi H bs C V i) /\ length (Vi H bs C V i) = sl).
      { induction i0 as [|j [IB IL]]; [auto|]. unfold Vi in *. cbn [Nat.iter]. split; [apply MACb; auto|apply MACl]. }
      destruct (drbg_hmac_ok c C [Vi H bs C V i] Hw HC HlC) as (c1 & -> & W1).
      { constructor; [apply HVi|constructor]. }
      { cbn [concat]. rewrite app_nil_r, (proj2 (HVi i)). lia. }
      cbn [concat]. rewrite app_nil_r. change (MAC C (Vi H bs C V i)) with (Vi H bs C V (S i)). fold sl.
      replace (if (sl <? n)%nat then sl else n) with (Nat.min sl n) by (destruct (Nat.ltb_spec sl n); lia).
      destruct (IH c1 C V (S i) (n - Nat.min sl n)%nat N W1 HC HlC HV HlV) as (c' & -> & W'); try nia.
      exists c'. split; auto. replace (i + S N)%nat with (S i + N)%nat by lia.
      f_equal. f_equal. apply blk_step. apply HVi.
  Qed.

  Lemma mgenerate_ok : forall s t a n, mrel s (Some t) -> bytes a -> Z.of_nat (length a) <= 2 ^ 31 ->
    exists s', drbg_hmac_generate_internal h s (if (length a =? 0)%nat then None else Some a) n
      = (fst (HMD_generate H bs sl t a n), s') /\ mrel s' (Some (snd (HMD_generate H bs sl t a n))).
  Proof.
    intros s t a n [Hw (Hsd & HV & HC & HlV & HbV & HlC & HbC)] Ha Hla.
    destruct s as [c V0 C0 sd]. cbn [hmd_h hmd_V hmd_C hmd_seeded] in *. subst V0 C0 sd.
    unfold drbg_hmac_generate_internal, HMD_generate.
    set (ad := if (length a =? 0)%nat then None else Some a).
    set (pd := match ad with Some a => Some [a] | None => None end).
    assert (Hpd : match pd with None => True | Some l => Forall bytes l /\ Z.of_nat (length (concat l)) < 2 ^ 59 /\ concat l <> [] end
                  /\ match pd with None => [] | Some l => concat l end = a).
    { unfold pd, ad. destruct a as [|a0 a']; cbn [length Nat.eqb]; [auto|].
      cbn [concat]. rewrite app_nil_r. repeat split; auto; [lia|discriminate]. }
    destruct Hpd as [Hpd Epd].
    set (KV := match a with [] => (S_K t, S_V' t) | _ :: _ => HMD_update H bs a (S_K t) (S_V' t) end).
    assert (E1 : exists c1, match ad with Some _ => drbg_hmac_update h (mkHMD h c (S_V' t) (S_K t) true) pd
                            | None => mkHMD h c (S_V' t) (S_K t) true end = mkHMD h c1 (snd KV) (fst KV) true /\ wf (hm_h h c1)).
    { destruct a as [|a0 a'].
      - exists c. auto.
      - destruct (mupdate_ok c (S_V' t) (S_K t) true (S_V' t) pd Hw HbC HlC HbV HlV eq_refl Hpd) as (c1 & E & W).
        rewrite Epd in E. exists c1. split; auto. }
    assert (HKV : bytes (fst KV) /\ length (fst KV) = sl /\ bytes (snd KV) /\ length (snd KV) = sl).
    { unfold KV. clearbody ad pd. clear KV E1 Hpd Epd.
      destruct (update_length a (S_K t) (S_V' t)). destruct (update_bytes a (S_K t) (S_V' t) Ha HbC HbV).
      destruct a; auto. }
    destruct E1 as (c1 & -> & W1). cbn [hmd_h hmd_V hmd_C hmd_seeded].
    clearbody KV. destruct KV as [K V]. cbn [fst snd] in *.
    destruct HKV as (HbK & HlK & HbV1 & HlV1).
    destruct (mloop_ok n c1 K V 0 n (ceil_div n sl) W1 HbK HlK HbV1 HlV1 (le_n _) (ceil_div_ok n sl Hsl)) as (c2 & E2 & W2).
    { pose proof (ceil_div_le n sl Hsl). lia. }
    change (Vi H bs K V 0) with V in E2. rewrite E2. cbn [Nat.add].
    assert (HVi : forall i, bytes (Vi H bs K V i) /\ length (Vi H bs K V i) = sl).
    { induction i as [|j [IB IL]]; [auto|]. unfold Vi in *. cbn [Nat.iter]. split; [apply MACb; auto|apply MACl]. }
    set (m := ceil_div n sl) in *.
    destruct (mupdate_ok c2 (Vi H bs K V m) K true (Vi H bs K V m) pd W2 HbK HlK (proj1 (HVi m)) (proj2 (HVi m)) eq_refl Hpd)
      as (c3 & E3 & W3).
    rewrite Epd in E3. rewrite E3.
    destruct (update_length a K (Vi H bs K V m)) as [L1 L2].
    destruct (update_bytes a K (Vi H bs K V m) Ha HbK (proj1 (HVi m))) as [B1 B2].
    destruct (HMD_update H bs a K (Vi H bs K V m)) as [K' V']. cbn [fst snd] in *.
    eexists. split; [reflexivity|]. split; [exact W3|]. cbn [hmd_seeded hmd_V hmd_C S_K S_V']. auto 10.
  Qed.

  Lemma mseed_ok : forall s t e p, mrel s t -> bytes e -> bytes p -> e <> [] ->
    Z.of_nat (length e) < 2 ^ 58 -> Z.of_nat (length p) <= 2 ^ 31 ->
    let s' := drbg_hmac_update h s (Some (e :: if (length p =? 0)%nat then [] else [p])) in
    mrel (mkHMD h (hmd_h h s') (hmd_V h s') (hmd_C h s') true)
      (Some (match t with None => HMD_instantiate H bs sl e p | Some t => HMD_reseed H bs t e p end)).
  Proof.
    intros s t e p [Hw Ht] He Hp Hne Hle Hlp. cbn zeta.
    set (seed := e :: if (length p =? 0)%nat then [] else [p]).
    assert (Hsc : concat seed = e ++ p).
    { unfold seed. destruct p; cbn [length Nat.eqb concat]; rewrite ?app_nil_r; reflexivity. }
    assert (Hsb : Forall bytes seed).
    { unfold seed. constructor; auto. destruct (_ =? 0)%nat; constructor; auto. }
    destruct s as [c V0 C sd]. cbn [hmd_h hmd_V hmd_C hmd_seeded] in *.
    assert (I : exists V, V = (if sd then V0 else repeat 1 sl) /\ bytes V /\ length V = sl /\ bytes C /\ length C = sl /\
        HMD_update H bs (e ++ p) C V = match t with None => HMD_update H bs (e ++ p) (zeros sl) (repeat 1 sl)
                                | Some t => HMD_update H bs (e ++ p) (S_K t) (S_V' t) end).
    { destruct t as [t|].
      - destruct Ht as (-> & -> & -> & L1 & B1 & L2 & B2). exists (S_V' t). auto 10.
      - destruct Ht as (-> & ->). exists (repeat 1 sl). rewrite repeat_length, length_zeros.
        repeat split; auto using bytes_zeros. apply Forall_forall. intros x Hx. apply repeat_spec in Hx. subst. unfold byte. lia. }
    destruct I as (V & EV & HbV & HlV & HbC & HlC & EU).
    destruct (mupdate_ok c V0 C sd V (Some seed) Hw HbC HlC HbV HlV EV) as (c' & E & W').
    { rewrite Hsc. repeat split; auto; [rewrite app_length; lia|]. destruct e; [congruence|discriminate]. }
    cbn beta iota in E. rewrite Hsc, EU in E. rewrite E. cbn [hmd_h hmd_V hmd_C].
    split; [exact W'|].
    destruct (update_length (e ++ p) C V) as [L1 L2].
    destruct (update_bytes (e ++ p) C V (bytes_app _ _ He Hp) HbC HbV) as [B1 B2].
    rewrite EU in L1, L2, B1, B2. unfold HMD_instantiate, HMD_reseed.
    destruct t as [t|]; [destruct (HMD_update H bs (e ++ p) (S_K t) (S_V' t)) as [K1 V1]|
                         destruct (HMD_update H bs (e ++ p) (zeros sl) (repeat 1 sl)) as [K1 V1]];
      cbn [fst snd hmd_seeded hmd_V hmd_C S_K S_V'] in *; auto 10.
  Qed.

  Definition mreq_good (r : drbg_req) : Prop :=
    match r with
    | RSeed e p => bytes e /\ bytes p /\ Z.of_nat (length e) < 2 ^ 58
    | RGen a _ => bytes a
    end.
  Definition mctr_le (t : option hmd_state) (k : Z) : Prop :=
    match t with None => False | Some t => S_ctr' t <= k end.

  Lemma mstep_ok : forall s t r k, mrel s t -> mctr_le t k -> k <= 2 ^ 48 -> 1 <= k -> mreq_good r ->
    exists rc o s' t', hmac_drbg_step h s r = (rc, o, s') /\ HMD_step H bs sl t r = (rc, o, t') /\
      mrel s' t' /\ mctr_le t' (k + 1).
  Proof.
    intros s t r k HR Hk Hk48 Hk1 Hg. destruct t as [t|]; [|destruct Hk]. cbn [mctr_le] in Hk.
    destruct r as [e p|a n]; cbn [hmac_drbg_step HMD_step].
    - destruct Hg as (He & Hp & Hl). unfold max_addtl.
      destruct (Z.ltb_spec (2 ^ 31) (Z.of_nat (length p))); cbn [orb].
      { do 4 eexists. repeat split; eauto. all: try apply HR. cbn [mctr_le]. lia. }
      destruct (Nat.eqb_spec (length e) 0) as [E|E].
      { do 4 eexists. repeat split; eauto. all: try apply HR. cbn [mctr_le]. lia. }
      do 4 eexists. split; [reflexivity|]. split; [reflexivity|]. split.
      + apply (mseed_ok s (Some t) e p HR He Hp); auto. intros ->. apply E. reflexivity.
      + cbn [mctr_le]. unfold HMD_reseed. destruct (HMD_update _ _ _ _ _). cbn. lia.
    - unfold max_request, max_addtl, reseed_interval. cbn in Hg.
      rewrite (proj2 (Z.ltb_ge (2 ^ 48) (S_ctr' t))) by lia. rewrite orb_false_r.
      destruct (Z.ltb_spec (2 ^ 16) (Z.of_nat n)); cbn [orb].
      { do 4 eexists. repeat split; eauto. all: try apply HR. cbn [mctr_le]. lia. }
      destruct (Z.ltb_spec (2 ^ 31) (Z.of_nat (length a))).
      { do 4 eexists. repeat split; eauto. all: try apply HR. cbn [mctr_le]. lia. }
      destruct (mgenerate_ok s t a n HR Hg ltac:(lia)) as (s' & -> & R').
      destruct (HMD_generate H bs sl t a n) as [o t'] eqn:E. cbn [fst snd] in *.
      do 4 eexists. split; [reflexivity|]. split; [reflexivity|]. split; [exact R'|].
      cbn [mctr_le]. unfold HMD_generate in E.
      destruct (match a with [] => (S_K t, S_V' t) | _ :: _ => HMD_update H bs a (S_K t) (S_V' t) end) as [K1 V1].
      destruct (HMD_update H bs a K1 (Vi H bs K1 V1 (ceil_div n sl))) as [K2 V2].
      injection E as _ <-. cbn [S_ctr']. lia.
  Qed.

  Lemma mrun_ok : forall rs s t k, mrel s t -> mctr_le t k -> 1 <= k -> k + Z.of_nat (length rs) <= 2 ^ 48 + 1 ->
    Forall mreq_good rs ->
    fst (run_reqs (hmac_drbg_step h) s rs) = fst (run_reqs (HMD_step H bs sl) t rs) /\
    mrel (snd (run_reqs (hmac_drbg_step h) s rs)) (snd (run_reqs (HMD_step H bs sl) t rs)).
  Proof.
    induction rs as [|r rs IH]; intros s t k HR Hk Hk1 Hl Hg; [auto|].
    inversion Hg; subst. cbn [run_reqs length] in *.
    destruct (mstep_ok s t r k HR Hk ltac:(lia) Hk1 ltac:(assumption)) as (rc & o & s' & t' & -> & -> & R' & K').
    specialize (IH s' t' (k + 1) R' K' ltac:(lia) ltac:(lia) ltac:(assumption)).
    destruct (run_reqs (hmac_drbg_step h) s' rs) as [l s2].
    destruct (run_reqs (HMD_step H bs sl) t' rs) as [l' t2]. cbn [fst snd] in *.
    destruct IH as [-> IH]. auto.
  Qed.

  Lemma hmac_drbg_ok : forall c e p rs, wf (hm_h h c) -> mreq_good (RSeed e p) -> e <> [] -> Z.of_nat (length p) <= 2 ^ 31 ->
    Z.of_nat (length rs) <= 2 ^ 48 -> Forall mreq_good rs ->
    let m := run_reqs (hmac_drbg_step h) (hmac_drbg_zero h c) (RSeed e p :: rs) in
    let s := run_reqs (HMD_step H bs sl) None (RSeed e p :: rs) in
    fst m = fst s /\
    exists t, snd s = Some t /\ hmd_V h (snd m) = S_V' t /\ hmd_C h (snd m) = S_K t.
  Proof.
    intros c e p rs Hw (He & Hp & Hl) Hne Hlp Hlen Hg. cbn zeta. cbn [run_reqs hmac_drbg_step HMD_step].
    unfold max_addtl. rewrite (proj2 (Z.ltb_ge (2 ^ 31) (Z.of_nat (length p)))) by lia. cbn [orb].
    replace (length e =? 0)%nat with false by (destruct e; [congruence|reflexivity]).
    pose proof (mseed_ok (hmac_drbg_zero h c) None e p (conj Hw (conj eq_refl eq_refl)) He Hp Hne Hl Hlp) as R. cbn zeta in R.
    set (s1 := mkHMD h _ _ _ true) in *. set (t1 := HMD_instantiate H bs sl e p) in *.
    assert (C1 : mctr_le (Some t1) 1).
    { unfold t1, HMD_instantiate. destruct (HMD_update _ _ _ _ _). cbn. lia. }
    destruct (mrun_ok rs s1 (Some t1) 1 R C1 ltac:(lia) ltac:(lia) Hg) as [E R2].
    destruct (run_reqs (hmac_drbg_step h) s1 rs) as [l s2].
    destruct (run_reqs (HMD_step H bs sl) (Some t1) rs) as [l' t2] eqn:ET. cbn [fst snd] in *.
    split; [congruence|].
    assert (X : forall rs t, exists t', snd (run_reqs (HMD_step H bs sl) (Some t) rs) = Some t').
    { clear. induction rs as [|r rs IH]; intros t; [exists t; reflexivity|]. cbn [run_reqs].
      assert (S : exists rc o t', HMD_step H bs sl (Some t) r = (rc, o, Some t')).
      { destruct r; cbn [HMD_step]; [destruct (_ || _)|destruct (_ || _ || _)]; eauto.
        destruct (HMD_generate H bs sl t addtl n); eauto. }
      destruct S as (rc & o & t' & ->). destruct (IH t') as [t'' E].
      destruct (run_reqs (HMD_step H bs sl) (Some t') rs). exists t''. exact E. }
    destruct (X rs t1) as [t' Et']. rewrite ET in Et'. cbn [snd] in Et'. subst t2.
    exists t'. split; [reflexivity|]. destruct R2 as [_ (_ & -> & -> & _)]. auto.
  Qed.
End HmacDrbgProof.
