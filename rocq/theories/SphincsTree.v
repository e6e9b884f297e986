(** treehash and the recomputation of roots against the Merkle trees of FIPS 205. *)
From Verif Require Import Bytes Words ZUtil KeccakModel Sha3Model KeccakBytes Fips202 KyberModel KyberSample KyberKem DilithiumModel
  DilithiumSample DilithiumScheme DilithiumHint SphincsModel SlhSpec SlhCorrect SphincsAddr SphincsWots.

Lemma nupd_len : forall l i v, length (nupd l i v) = length l.
Proof. induction l; intros [|i] v; cbn [nupd length]; auto. Qed.
Lemma nupd_nth : forall l i v g, (i < length l)%nat -> nth g (nupd l i v) [] = if (g =? i)%nat then v else nth g l [].
Proof.
  induction l; intros i v g H; [cbn in H; lia|]. destruct i as [|i]; destruct g as [|g]; cbn [nupd nth Nat.eqb]; auto. apply IHl. cbn in H. lia.
Qed.
Lemma nupd_nodes : forall n l i v, Forall (node n) l -> node n v -> Forall (node n) (nupd l i v).
Proof. induction l; intros [|i] v F Hv; cbn [nupd]; auto; inversion F; subst; constructor; auto. Qed.
Lemma nth_node : forall n l i, Forall (node n) l -> (i < length l)%nat -> node n (nth i l []).
Proof. intros n l i F H. rewrite Forall_forall in F. apply F. apply nth_In. auto. Qed.
Lemma land1_even : forall x, Z.land x 1 =? 0 = Z.even x.
Proof.
  intros. change 1 with (Z.ones 1). rewrite Z.land_ones by lia. change (2 ^ 1) with 2. rewrite Zmod_even. destruct (Z.even x); reflexivity.
Qed.
Lemma land1_odd : forall x, Z.land x 1 =? 1 = negb (Z.even x).
Proof.
  intros. change (Z.land x 1) with (Z.land x (Z.ones 1)). rewrite Z.land_ones by lia. change (2 ^ 1) with 2. rewrite Zmod_even. destruct (Z.even x); reflexivity.
Qed.
Lemma shiftr1 : forall x, Z.shiftr x 1 = x / 2.
Proof. intros. rewrite Z.shiftr_div_pow2 by lia. reflexivity. Qed.
Lemma lxor1_iff : forall a b, Z.lxor a b = 1 <-> Z.lxor b 1 = a.
Proof.
  intros. split; intros E.
  - rewrite <- E, (Z.lxor_comm a b), <- Z.lxor_assoc, Z.lxor_nilpotent. apply Z.lxor_0_l.
  - rewrite <- E, (Z.lxor_comm b 1), Z.lxor_assoc, Z.lxor_nilpotent. apply Z.lxor_0_r.
Qed.
Lemma pow2S : forall k, 2 ^ Z.of_nat (S k) = 2 * 2 ^ Z.of_nat k.
Proof. intros. rewrite Nat2Z.inj_succ, Z.pow_succ_r by lia. reflexivity. Qed.
Lemma pow2pos : forall k, 0 < 2 ^ Z.of_nat k.
Proof. intros. apply Z.pow_pos_nonneg; lia. Qed.
Lemma even_half : forall x, Z.even x = true -> x = 2 * (x / 2).
Proof. intros x E. pose proof (Z.div_mod x 2 ltac:(lia)) as D. rewrite Zmod_even, E in D. lia. Qed.
Lemma odd_half : forall x, Z.even x = false -> x = 2 * (x / 2) + 1.
Proof. intros x E. pose proof (Z.div_mod x 2 ltac:(lia)) as D. rewrite Zmod_even, E in D. lia. Qed.
Lemma divS : forall x k, x / 2 ^ Z.of_nat (S k) = x / 2 ^ Z.of_nat k / 2.
Proof. intros. rewrite pow2S, (Z.mul_comm 2), <- Z.div_div by (pose proof (pow2pos k); lia). reflexivity. Qed.

Section Tree.
  Variable P : sparam.
  Variable p : slhp.
  Hypothesis Hn : f_n p = sp_n P.
  Hypothesis Hn32 : (16 <= sp_n P <= 32)%nat.
  Local Notation n := (sp_n P).
  Variables pub : list Z.
  Hypothesis Bpub : node n pub.
  (** the address and the leaves of the tree *)
  Variables l t ty kp : Z.
  Hypothesis W : wfB l t ty kp.
  Local Notation AD a b := (mkADRS l t ty kp a b).
  Variable L : Z -> list Z.
  Hypothesis NL : forall i, node n (L i).
  Variable H : nat.
  Hypothesis HH : (H < 256)%nat.
  Variable c : Z.
  Hypothesis Hc : 0 <= c.
  Hypothesis Hoff : (c + 1) * 2 ^ Z.of_nat H <= 2 ^ 32.
  Local Notation N := (merk p pub (AD 0 0) L).

  Lemma N_node : forall z i, node n (N z i).
  Proof.
    induction z; intros i; cbn [merk]. apply NL. apply T_node with (P := P); auto. apply node_app with (n := n); apply IHz.
  Qed.
  Definition o (h : nat) : Z := c * 2 ^ Z.of_nat (H - h).
  Lemma o_S : forall h, (h < H)%nat -> o h = 2 * o (S h).
  Proof. intros h Hh. unfold o. replace (H - h)%nat with (S (H - S h)) by lia. rewrite pow2S. ring. Qed.
  Lemma N_S : forall h x, (h < H)%nat -> Z.even x = false -> T_l p pub (AD (Z.of_nat h + 1) (o (S h) + x / 2)) (N h (o h + (x - 1)) ++ N h (o h + x)) = N (S h) (o (S h) + x / 2).
  Proof.
    intros h x Hh E. cbn [merk]. replace (Z.of_nat (S h)) with (Z.of_nat h + 1) by lia. unfold setNode. cbn [A_layer A_tree A_type A_w1]. apply f_equal.
    pose proof (odd_half x E) as D. pose proof (o_S h Hh) as OS. replace (2 * (o (S h) + x / 2)) with (o h + (x - 1)) by lia.
    replace (o h + (x - 1) + 1) with (o h + x) by lia. reflexivity.
  Qed.

  Section Up.
    Variable leaf : Z.
    Definition sib (g : nat) : Z := Z.lxor (leaf / 2 ^ Z.of_nat g) 1.
    Definition stackok (idx : Z) (s : list (list Z)) : Prop :=
      forall g, (g < H)%nat -> Z.even (idx / 2 ^ Z.of_nat g) = false -> nth g s [] = N g (o g + (idx / 2 ^ Z.of_nat g - 1)).
    Definition authok (k : nat) (idx : Z) (a : list (list Z)) : Prop :=
      forall g, (g < H)%nat -> (sib g + 1) * 2 ^ Z.of_nat g <= (if (g <? k)%nat then idx + 1 else idx) -> nth g a [] = N g (o g + sib g).

    Lemma th_up_ok : forall todo h idx auth stack a2 a3,
      (todo + h = H)%nat -> 0 <= idx < 2 ^ Z.of_nat H -> idx + 1 = (idx / 2 ^ Z.of_nat h + 1) * 2 ^ Z.of_nat h ->
      Forall (node n) stack -> length stack = H -> Forall (node n) auth -> length auth = H ->
      stackok idx stack -> authok h idx auth -> 0 <= a2 < 256 -> 0 <= a3 < 2 ^ 32 ->
      exists res auth' stack' b2 b3, 0 <= b2 < 256 /\ 0 <= b3 < 2 ^ 32 /\
        th_up P pub todo h (idx <? 2 ^ Z.of_nat H - 1) (idx / 2 ^ Z.of_nat h) (leaf / 2 ^ Z.of_nat h) (o h) (N h (o h + idx / 2 ^ Z.of_nat h)) auth stack (adrs_bytes (AD a2 a3))
          = (res, auth', stack', adrs_bytes (AD b2 b3)) /\
        Forall (node n) stack' /\ length stack' = H /\ Forall (node n) auth' /\ length auth' = H /\ authok 0 (idx + 1) auth' /\
        (if idx + 1 =? 2 ^ Z.of_nat H then res = Some (N H c) else res = None /\ stackok (idx + 1) stack').
    Proof.
      induction todo; intros h idx auth stack a2 a3 Hh Hi Hones Fs Ls Fa La HS HA Ha2 Ha3; cbn [th_up]; cbv zeta.
      - assert (h = H) by lia. subst h. exists (Some (N H (o H + idx / 2 ^ Z.of_nat H))), auth, stack, a2, a3. split; auto. split; auto. split; auto. repeat split; auto.
        + intros g Hg Hb. apply HA; auto. apply Nat.ltb_lt in Hg. rewrite Hg. destruct (g <? 0)%nat eqn:E0; [apply Nat.ltb_lt in E0; lia|]. exact Hb.
        + rewrite Z.div_small in Hones by lia. rewrite Z.div_small by lia. rewrite Hones, Z.add_0_l, Z.mul_1_l, Z.eqb_refl. do 2 f_equal. unfold o. rewrite Nat.sub_diag. change (2 ^ Z.of_nat 0) with 1. lia.
      - set (x := idx / 2 ^ Z.of_nat h) in *. set (y := leaf / 2 ^ Z.of_nat h). pose proof (pow2pos h) as P2. pose proof (pow2pos H) as PH.
        assert (Hx0 : 0 <= x) by (apply Z.div_pos; lia).
        assert (Hcur : node n (N h (o h + x))) by apply N_node.
        assert (Hau : node n (nth h auth [])) by (apply nth_node; auto; lia).
        rewrite cmov_ok; [|apply Hau|apply Hcur|rewrite (proj2 Hau), (proj2 Hcur); reflexivity|destruct (_ =? _); auto].
        set (auth' := nupd auth h _).
        assert (Fa' : Forall (node n) auth') by (apply nupd_nodes; auto; destruct (_ =? 1); auto).
        assert (La' : length auth' = H) by (unfold auth'; rewrite nupd_len; auto).
        assert (Asib : sib h = x <-> Z.lxor x y = 1) by (unfold sib; fold y; rewrite lxor1_iff; reflexivity).
        assert (HA' : authok (S h) idx auth').
        { intros g Hg Hb. unfold auth'. rewrite nupd_nth by lia. destruct (Nat.eqb_spec g h) as [->|Ng].
          - destruct (Nat.ltb_spec h (S h)); [|lia]. destruct (Z.eqb_spec (Z.lxor x y) 1) as [E|E]; cbn [Z.eqb Pos.eqb].
            + apply Asib in E. rewrite E. reflexivity.
            + apply HA; auto. destruct (Nat.ltb_spec h h); [lia|]. assert (sib h <> x) by (intros E'; apply E, Asib; exact E').
              assert (sib h + 1 <= x + 1) by nia. nia.
          - apply HA; auto. destruct (Nat.ltb_spec g (S h)); destruct (Nat.ltb_spec g h); lia || exact Hb. }
        assert (HTOP : x + 1 <= 2 ^ Z.of_nat (S todo)).
        { assert (EH : 2 ^ Z.of_nat H = 2 ^ Z.of_nat (S todo) * 2 ^ Z.of_nat h) by (rewrite <- Z.pow_add_r by lia; f_equal; lia).
          apply Z.mul_le_mono_pos_r with (p := 2 ^ Z.of_nat h); [exact P2|]. rewrite <- Hones, <- EH. lia. }
        rewrite land1_even. destruct (Z.even x && (idx <? 2 ^ Z.of_nat H - 1)) eqn:EB.
        + apply andb_true_iff in EB. destruct EB as [EV LT]. apply Z.ltb_lt in LT.
          exists None, auth', (nupd stack h (N h (o h + x))), a2, a3. split; auto. split; auto. split; auto.
          split; [apply nupd_nodes; auto|]. split; [rewrite nupd_len; auto|]. split; auto. split; auto.
          pose proof (even_half x EV) as X2.
          assert (UP : forall g, (h < g)%nat -> (idx + 1) / 2 ^ Z.of_nat g = idx / 2 ^ Z.of_nat g /\ (idx + 1) mod 2 ^ Z.of_nat g <> 0).
          { intros g Hg. replace (Z.of_nat g) with (Z.of_nat (S h) + Z.of_nat (g - S h)) by lia. rewrite Z.pow_add_r by lia.
            assert (Q1 : idx / 2 ^ Z.of_nat (S h) = x / 2) by apply divS.
            assert (Q2 : (idx + 1) / 2 ^ Z.of_nat (S h) = x / 2).
            { rewrite divS, Hones, Z.div_mul by lia. replace (x + 1) with (1 + (x / 2) * 2) by lia. rewrite Z.div_add by lia. reflexivity. }
            split. rewrite <- !Z.div_div by (lia || apply Z.pow_nonzero; lia || apply Z.pow_pos_nonneg; lia). rewrite Q1, Q2. reflexivity.
            intros M0. apply Z.mod_divide in M0; [|apply Z.neq_mul_0; split; apply Z.pow_nonzero; lia]. destruct M0 as [q Q].
            rewrite Hones, pow2S in Q. assert (x + 1 = 2 * (q * 2 ^ Z.of_nat (g - S h))) by nia. lia. }
          split.
          * intros g Hg Hb. destruct (Nat.ltb_spec g 0); [lia|]. destruct (Nat.lt_ge_cases h g) as [Hgt|Hle].
            -- apply HA'; auto. destruct (Nat.ltb_spec g (S h)); [lia|].
               destruct (UP g Hgt) as [_ M0]. assert ((sib g + 1) * 2 ^ Z.of_nat g <> idx + 1). { intros E. apply M0. rewrite <- E. apply Z.mod_mul. apply Z.pow_nonzero; lia. } lia.
            -- apply HA'; auto. destruct (Nat.ltb_spec g (S h)); [exact Hb|lia].
          * destruct (Z.eqb_spec (idx + 1) (2 ^ Z.of_nat H)); [lia|]. split; auto.
            intros g Hg Ho. rewrite nupd_nth by lia. destruct (Nat.eqb_spec g h) as [->|Ng].
            -- rewrite Hones, Z.div_mul by lia. f_equal. lia.
            -- destruct (Nat.lt_ge_cases h g) as [Hgt|Hle].
               ++ destruct (UP g Hgt) as [E _]. rewrite E in *. apply HS; auto.
               ++ exfalso. assert (Hlt : (g < h)%nat) by lia. rewrite Hones in Ho.
                  assert (E : 2 ^ Z.of_nat h = 2 ^ Z.of_nat (h - S g) * 2 * 2 ^ Z.of_nat g).
                  { rewrite <- (Z.pow_1_r 2) at 3. rewrite <- !Z.pow_add_r by lia. f_equal. lia. }
                  rewrite E in Ho. rewrite Z.mul_assoc, Z.div_mul in Ho by (apply Z.pow_nonzero; lia). rewrite Z.mul_assoc in Ho. rewrite Z.even_mul in Ho. cbn [Z.even] in Ho. rewrite orb_true_r in Ho. discriminate.
        + assert (OD : Z.even x = false).
          { destruct (Z.even x) eqn:EV; auto. cbn [andb] in EB. apply Z.ltb_ge in EB. assert (idx = 2 ^ Z.of_nat H - 1) by lia.
            assert (EH : 2 ^ Z.of_nat H = 2 ^ Z.of_nat todo * 2 * 2 ^ Z.of_nat h) by (rewrite <- (Z.pow_1_r 2) at 3; rewrite <- !Z.pow_add_r by lia; f_equal; lia).
            pose proof (even_half x EV). assert (x + 1 = 2 ^ Z.of_nat todo * 2) by nia. lia. }
          assert (Hs : nth h stack [] = N h (o h + (x - 1))) by (apply HS; [lia|exact OD]).
          rewrite Hs. rewrite !shiftr1. assert (HOS : o h / 2 = o (S h)) by (rewrite o_S by lia; rewrite Z.mul_comm; apply Z.div_mul; lia). rewrite HOS.
          assert (Ho : 0 <= o (S h)) by (unfold o; pose proof (pow2pos (H - S h)); nia).
          assert (HB : 0 <= x / 2 + o (S h) < 2 ^ 32).
          { split; [assert (0 <= x / 2) by (apply Z.div_pos; lia); lia|]. pose proof (odd_half x OD).
            assert (E : 2 ^ Z.of_nat (S todo) = 2 * 2 ^ Z.of_nat (H - S h)) by (rewrite <- pow2S; f_equal; lia).
            assert (2 ^ Z.of_nat (H - S h) <= 2 ^ Z.of_nat H) by (apply Z.pow_le_mono_r; lia). unfold o.
            assert (x / 2 + 1 <= 2 ^ Z.of_nat (H - S h)) by lia. set (K := 2 ^ Z.of_nat (H - S h)) in *.
            apply Z.lt_le_trans with ((c + 1) * K); [lia|]. apply Z.le_trans with ((c + 1) * 2 ^ Z.of_nat H); [|exact Hoff]. apply Z.mul_le_mono_nonneg_l; lia. }
          rewrite set_height_ok; [|apply wfB_A; auto|lia]. cbn [A_layer A_tree A_type A_w1 A_w2 A_w3].
          rewrite set_index_ok by (apply wfB_A; auto; lia). cbn [A_layer A_tree A_type A_w1 A_w2 A_w3].
          rewrite (thash_ok P p Hn) by (auto; try lia; try (destruct (node_app n (N h (o h + (x - 1))) (N h (o h + x))) as [B1 L1]; [apply N_node|apply N_node|]; (exact B1 || rewrite L1; lia))).
          rewrite (Z.add_comm (x / 2)). rewrite N_S by (auto; lia). assert (EX : x / 2 = idx / 2 ^ Z.of_nat (S h)) by (symmetry; apply divS). rewrite EX in *. unfold y. rewrite <- divS.
          destruct (IHtodo (S h) idx auth' stack (Z.of_nat h + 1) (o (S h) + idx / 2 ^ Z.of_nat (S h))) as (res & au & st & b2 & b3 & Hb2 & Hb3 & E & R); auto; try lia.
          { rewrite <- EX. rewrite pow2S. rewrite Hones. clear - OD. pose proof (odd_half x OD) as D. set (u := x / 2) in *. clearbody u. rewrite D. ring. }
          exists res, au, st, b2, b3. split; [exact Hb2|]. split; [exact Hb3|]. split; [exact E|exact R].
    Qed.

    Hypothesis Hleaf : 0 <= leaf.
    Lemma sib_pos : forall g, 0 <= sib g.
    Proof. intros. unfold sib. apply Z.lxor_nonneg. pose proof (Z.div_pos leaf (2 ^ Z.of_nat g) Hleaf (pow2pos g)). lia. Qed.
    Lemma sib_top : forall g, (g < H)%nat -> leaf < 2 ^ Z.of_nat H -> (sib g + 1) * 2 ^ Z.of_nat g <= 2 ^ Z.of_nat H.
    Proof.
      intros g Hg HL. unfold sib. set (y := leaf / 2 ^ Z.of_nat g). pose proof (pow2pos g) as P2. pose proof (pow2pos (H - S g)) as P3.
      assert (EH : 2 ^ Z.of_nat H = (2 * 2 ^ Z.of_nat (H - S g)) * 2 ^ Z.of_nat g) by (rewrite <- pow2S, <- Z.pow_add_r by lia; f_equal; lia).
      assert (y < 2 * 2 ^ Z.of_nat (H - S g)) by (apply Z.div_lt_upper_bound; [exact P2|]; rewrite Z.mul_comm, <- EH; exact HL).
      rewrite EH. apply Z.mul_le_mono_nonneg_r; [lia|]. destruct (Z.even y) eqn:E.
      - rewrite lxor1_even by auto. pose proof (even_half y E). lia.
      - rewrite lxor1_odd by auto. lia.
    Qed.

    Variable I : Type.
    Variable gen : Z -> I -> list Z * I.
    Variable Inv : Z -> I -> Prop.
    Hypothesis Hgen : forall idx i, 0 <= idx < 2 ^ Z.of_nat H -> Inv idx i -> exists i', gen (idx + o 0) i = (L (o 0 + idx), i') /\ Inv (idx + 1) i'.
    Lemma th_loop_ok : forall fuel idx i auth stack a2 a3,
      Z.of_nat fuel = 2 ^ Z.of_nat H - idx -> 0 <= idx < 2 ^ Z.of_nat H -> Inv idx i ->
      Forall (node n) stack -> length stack = H -> Forall (node n) auth -> length auth = H ->
      stackok idx stack -> authok 0 idx auth -> 0 <= a2 < 256 -> 0 <= a3 < 2 ^ 32 ->
      exists auth' i' b2 b3, 0 <= b2 < 256 /\ 0 <= b3 < 2 ^ 32 /\
        th_loop P pub gen leaf (o 0) H fuel idx i auth stack (adrs_bytes (AD a2 a3)) = Some (N H c, auth', adrs_bytes (AD b2 b3), i') /\
        Forall (node n) auth' /\ length auth' = H /\ authok 0 (2 ^ Z.of_nat H) auth' /\ Inv (2 ^ Z.of_nat H) i'.
    Proof.
      induction fuel; intros idx i auth stack a2 a3 Hf Hi HI Fs Ls Fa La HS HA Ha2 Ha3; [lia|]. cbn [th_loop].
      destruct (Hgen idx i Hi HI) as (i1 & E1 & I1). rewrite E1. unfold max_idx.
      destruct (th_up_ok H 0 idx auth stack a2 a3) as (res & au & st & b2 & b3 & Hb2 & Hb3 & E & Fs' & Ls' & Fa' & La' & HA' & R); auto; try lia.
      { change (2 ^ Z.of_nat 0) with 1. rewrite Z.div_1_r. lia. }
      change (2 ^ Z.of_nat 0) with 1 in E. rewrite !Z.div_1_r in E. cbn [merk] in E. rewrite E.
      destruct (Z.eqb_spec (idx + 1) (2 ^ Z.of_nat H)) as [EQ|NE].
      - subst res. exists au, i1, b2, b3. rewrite <- EQ. repeat split; auto; lia.
      - destruct R as [-> HS']. destruct (IHfuel (idx + 1) i1 au st b2 b3) as (au' & i' & c2 & c3 & R); auto; try lia. exists au', i', c2, c3. exact R.
    Qed.
    (** the authentication path *)
    Definition auth_of : list (list Z) := map (fun g => N g (o g + sib g)) (seq 0 H).
    Theorem treehash_ok : forall i auth a2 a3, Inv 0 i -> Forall (node n) auth -> length auth = H -> 0 <= a2 < 256 -> 0 <= a3 < 2 ^ 32 ->
      exists auth' i' b2 b3, 0 <= b2 < 256 /\ 0 <= b3 < 2 ^ 32 /\
        treehashx1 P pub gen leaf (o 0) H auth (repeat (zeros n) H) (adrs_bytes (AD a2 a3)) i = Some (N H c, auth', adrs_bytes (AD b2 b3), i') /\
        Inv (2 ^ Z.of_nat H) i' /\ (0 <= leaf < 2 ^ Z.of_nat H -> auth' = auth_of).
    Proof.
      intros i auth a2 a3 HI Fa La Ha2 Ha3. unfold treehashx1. pose proof (pow2pos H) as PH.
      destruct (th_loop_ok (Z.to_nat (2 ^ Z.of_nat H)) 0 i auth (repeat (zeros n) H) a2 a3) as (au & i' & b2 & b3 & Hb2 & Hb3 & E & Fa' & La' & HA' & HI'); auto; try lia.
      { apply Forall_forall. intros x Hx. apply repeat_spec in Hx. subst x. split. apply bytes_zeros. apply length_zeros. }
      { apply repeat_length. }
      { intros g Hg Ho. rewrite Z.div_0_l in Ho by (pose proof (pow2pos g); lia). discriminate. }
      { intros g Hg Hb. exfalso. destruct (Nat.ltb_spec g 0); [lia|].
        pose proof (sib_pos g). pose proof (pow2pos g). nia. }
      exists au, i', b2, b3. split; auto. split; auto. split; auto. split; auto. intros HL.
      apply nth_ext with (d := []) (d' := []). { unfold auth_of. rewrite map_length, seq_length. auto. }
      intros g Hg. rewrite La' in Hg. unfold auth_of. rewrite (nth_indep (map (fun g => N g (o g + sib g)) (seq 0 H)) [] (N 0 (o 0 + sib 0))) by (rewrite map_length, seq_length; auto).
      rewrite (map_nth (fun g => N g (o g + sib g))), seq_nth by auto. cbn [Nat.add].
      apply HA'; auto. destruct (Nat.ltb_spec g 0); [lia|]. apply sib_top; [auto|lia].
    Qed.
  End Up.

  (** ** [compute_root] *)
  Lemma blocks_S : forall k m (x : list Z), blocks (S k) m x = firstn m x :: blocks k m (skipn m x).
  Proof.
    clear. intros. unfold blocks. cbn [seq map]. apply f_equal2. reflexivity. rewrite <- seq_shift, map_map. apply map_ext. intros j. symmetry. apply slice_shift.
  Qed.
  Lemma root_loop_ok : forall todo i idx d X a auth a2 a3, 0 <= d -> 0 <= i -> i + Z.of_nat todo < 255 -> 0 <= idx ->
    idx + d * 2 ^ Z.of_nat (S todo) < 2 ^ 32 -> node n X -> node n a -> bytes auth -> (todo * n <= length auth)%nat -> 0 <= a2 < 256 -> 0 <= a3 < 2 ^ 32 ->
    exists b2 b3, 0 <= b2 < 256 /\ 0 <= b3 < 2 ^ 32 /\
    root_loop P pub todo i idx (d * 2 ^ Z.of_nat (S todo)) (if Z.even idx then X else a) (if Z.even idx then a else X) auth (adrs_bytes (AD a2 a3)) =
    (climb p pub (AD 0 0) X idx (d * 2 ^ Z.of_nat (S todo) + idx) i (a :: blocks todo n auth), adrs_bytes (AD b2 b3)).
  Proof.
    induction todo; intros i idx d X a auth a2 a3 Hd Hi Hit Hx Hb HX Ha BA LA Ha2 Ha3; cbn [root_loop]; cbv zeta; rewrite !shiftr1; rewrite pow2S in Hb |- *.
    - assert (Q : forall K, 2 * K / 2 = K) by (intros; rewrite Z.mul_comm; apply Z.div_mul; lia).
      change (2 ^ Z.of_nat 0) with 1 in *. replace (d * (2 * 1)) with (2 * d) in * by ring. rewrite Q.
      assert (HB : 0 <= idx / 2 + d < 2 ^ 32) by (pose proof (Z.div_mod idx 2 ltac:(lia)); pose proof (Z.mod_pos_bound idx 2 ltac:(lia)); lia).
      rewrite set_height_ok; [|apply wfB_A; auto|lia]. cbn [A_layer A_tree A_type A_w1 A_w2 A_w3].
      rewrite set_index_ok by (apply wfB_A; auto; lia). cbn [A_layer A_tree A_type A_w1 A_w2 A_w3].
      exists (i + 1), (idx / 2 + d). split; [lia|]. split; [lia|]. apply f_equal2; auto.
      unfold blocks. cbn [seq map climb]. unfold setNode. cbn [A_layer A_tree A_type A_w1].
      destruct (Z.even idx) eqn:E.
      + rewrite (thash_ok P p Hn) by (auto; try lia; destruct (node_app n X a) as [B1 L1]; auto; try (rewrite L1; lia)).
        replace ((2 * d + idx) / 2) with (idx / 2 + d). reflexivity. replace (2 * d + idx) with (idx + d * 2) by ring. rewrite Z.div_add; lia.
      + rewrite (thash_ok P p Hn) by (auto; try lia; destruct (node_app n a X) as [B1 L1]; auto; try (rewrite L1; lia)).
        replace ((2 * d + idx - 1) / 2) with (idx / 2 + d). reflexivity. replace (2 * d + idx - 1) with ((idx - 1) + d * 2) by ring. rewrite Z.div_add by lia.
        pose proof (odd_half idx E) as D. replace (idx - 1) with (idx / 2 * 2) by lia. rewrite Z.div_mul by lia. reflexivity.
    - assert (Q : forall K, d * (2 * K) / 2 = d * K) by (intros; replace (d * (2 * K)) with ((d * K) * 2) by ring; apply Z.div_mul; lia). rewrite Q.
      set (K := 2 ^ Z.of_nat (S todo)) in *. assert (PK : 0 < K) by apply pow2pos. assert (DK : 0 <= d * K) by nia.
      assert (HB : 0 <= idx / 2 + d * K < 2 ^ 32) by (pose proof (Z.div_mod idx 2 ltac:(lia)); pose proof (Z.mod_pos_bound idx 2 ltac:(lia)); lia).
      rewrite set_height_ok; [|apply wfB_A; auto|lia]. cbn [A_layer A_tree A_type A_w1 A_w2 A_w3].
      rewrite set_index_ok by (apply wfB_A; auto; lia). cbn [A_layer A_tree A_type A_w1 A_w2 A_w3].
      set (Y := T_l p pub (AD (i + 1) (idx / 2 + d * K)) (if Z.even idx then X ++ a else a ++ X)).
      assert (NY : node n Y) by (apply T_node with (P := P); auto; destruct (Z.even idx); apply node_app with (n := n); auto).
      assert (EY : thash P pub (adrs_bytes (AD (i + 1) (idx / 2 + d * K))) ((if Z.even idx then X else a) ++ (if Z.even idx then a else X)) = Y).
      { unfold Y. rewrite (thash_ok P p Hn).
        - destruct (Z.even idx); reflexivity.
        - lia.
        - auto.
        - destruct (Z.even idx); apply node_app with (n := n); auto.
        - rewrite app_length. destruct (Z.even idx); rewrite (proj2 HX), (proj2 Ha); lia. }
      rewrite EY. rewrite land1_odd.
      assert (HD : 0 <= idx / 2) by (apply Z.div_pos; lia).
      destruct (IHtodo (i + 1) (idx / 2) d Y (firstn n auth) (skipn n auth) (i + 1) (idx / 2 + d * K)) as (b2 & b3 & Hb2 & Hb3 & E); auto; try lia.
      { split. apply bytes_firstn; auto. rewrite firstn_length. nia. }
      { apply bytes_skipn; auto. } { rewrite skipn_length. nia. }
      exists b2, b3. split; auto. split; auto. fold K in E. transitivity (climb p pub (AD 0 0) Y (idx / 2) (d * K + idx / 2) (i + 1) (firstn n auth :: blocks todo n (skipn n auth)), adrs_bytes (AD b2 b3)).
      + rewrite <- E. destruct (Z.even (idx / 2)); reflexivity.
      + apply f_equal2; auto. rewrite blocks_S. symmetry. cbn [climb]. cbv zeta.
        assert (ET : (if Z.even idx then (d * (2 * K) + idx) / 2 else (d * (2 * K) + idx - 1) / 2) = d * K + idx / 2).
        { destruct (Z.even idx) eqn:EV.
          - replace (d * (2 * K) + idx) with (idx + (d * K) * 2) by ring. rewrite Z.div_add; lia.
          - replace (d * (2 * K) + idx - 1) with ((idx - 1) + (d * K) * 2) by ring. rewrite Z.div_add by lia. pose proof (odd_half idx EV) as D.
            replace (idx - 1) with (idx / 2 * 2) by lia. rewrite Z.div_mul by lia. lia. }
        rewrite ET. unfold setNode at 1. cbn [A_layer A_tree A_type A_w1]. unfold Y. rewrite (Z.add_comm (idx / 2)). reflexivity.
  Qed.
  Theorem compute_root_ok : forall leaf idx d auth m a2 a3, (0 < m < 255)%nat -> 0 <= d -> 0 <= idx -> idx + d * 2 ^ Z.of_nat m < 2 ^ 32 ->
    node n leaf -> bytes auth -> (m * n <= length auth)%nat -> 0 <= a2 < 256 -> 0 <= a3 < 2 ^ 32 ->
    exists b2 b3, 0 <= b2 < 256 /\ 0 <= b3 < 2 ^ 32 /\
    compute_root P pub leaf idx (d * 2 ^ Z.of_nat m) auth m (adrs_bytes (AD a2 a3)) =
    (climb p pub (AD 0 0) leaf idx (d * 2 ^ Z.of_nat m + idx) 0 (blocks m n auth), adrs_bytes (AD b2 b3)).
  Proof.
    intros leaf idx d auth m a2 a3 Hm Hd Hx Hb HL BA LA Ha2 Ha3. unfold compute_root. rewrite land1_odd. destruct m as [|m]; [lia|]. cbn [Nat.sub]. rewrite Nat.sub_0_r.
    rewrite blocks_S.
    destruct (root_loop_ok m 0 idx d leaf (firstn n auth) (skipn n auth) a2 a3) as (b2 & b3 & Hb2 & Hb3 & E); auto; try lia.
    { split. apply bytes_firstn; auto. rewrite firstn_length. nia. }
    { apply bytes_skipn; auto. } { rewrite skipn_length. nia. }
    exists b2, b3. split; auto. split; auto. rewrite <- E. destruct (Z.even idx); reflexivity.
  Qed.
End Tree.

(** ** FORS indices *)
Lemma toInt_nth : forall l q, bytes l -> (q < length l)%nat -> (toInt l / 256 ^ Z.of_nat (length l - 1 - q)) mod 256 = nth q l 0.
Proof.
  induction l; intros q B Hq; [cbn in Hq; lia|]. inversion B as [|? ? Ha B']; subst. rewrite toInt_cons. pose proof (toInt_bound l B') as R. unfold byte in Ha. cbn [length] in *.
  destruct q as [|q]; cbn [nth].
  - replace (S (length l) - 1 - 0)%nat with (length l) by lia. rewrite Z.div_add_l by lia. rewrite (Z.div_small (toInt l)) by lia. rewrite Z.add_0_r. apply Z.mod_small. lia.
  - rewrite <- IHl by (auto; lia). replace (S (length l) - 1 - S q)%nat with (length l - 1 - q)%nat by lia. set (e := (length l - 1 - q)%nat).
    replace (length l) with (S q + e)%nat by lia. rewrite (Nat2Z.inj_add (S q)), Z.pow_add_r by lia. rewrite Z.mul_assoc, Z.div_add_l by (apply Z.pow_nonzero; lia).
    rewrite Nat2Z.inj_succ, Z.pow_succ_r by lia. replace (a * (256 * 256 ^ Z.of_nat q) + toInt l / 256 ^ Z.of_nat e) with (toInt l / 256 ^ Z.of_nat e + (a * 256 ^ Z.of_nat q) * 256) by ring.
    apply Z.mod_add. lia.
Qed.
Lemma msg_bit : forall m off, bytes m -> (off < 8 * length m)%nat ->
  Z.land (Z.shiftr (nth (Z.to_nat (Z.shiftr (Z.of_nat off) 3)) m 0) (Z.land (Z.lnot (Z.of_nat off)) 7)) 1 =
  Z.b2z (Z.testbit (toInt m) (Z.of_nat (8 * length m - 1 - off))).
Proof.
  intros m off B Ho. pose proof (Nat.div_mod off 8 ltac:(lia)) as D. pose proof (Nat.mod_upper_bound off 8 ltac:(lia)) as R.
  set (q := (off / 8)%nat) in *. set (r := (off mod 8)%nat) in *.
  assert (Eq : Z.to_nat (Z.shiftr (Z.of_nat off) 3) = q).
  { rewrite Z.shiftr_div_pow2 by lia. change (2 ^ 3) with (Z.of_nat 8). rewrite <- Nat2Z.inj_div by lia. apply Nat2Z.id. }
  assert (Er : Z.land (Z.lnot (Z.of_nat off)) 7 = 7 - Z.of_nat r).
  { change 7 with (Z.ones 3) at 1. rewrite Z.land_ones by lia. change (2 ^ 3) with 8. unfold Z.lnot. rewrite D.
    replace (Z.pred (- Z.of_nat (8 * q + r))) with ((7 - Z.of_nat r) + (- Z.of_nat q - 1) * 8) by lia. rewrite Z.mod_add by lia. apply Z.mod_small. lia. }
  rewrite Eq, Er. rewrite <- toInt_nth by (auto; lia). set (e := (length m - 1 - q)%nat). rewrite pow256.
  change (Z.land ?x 1) with (Z.land x (Z.ones 1)). rewrite Z.land_ones by lia. change (2 ^ 1) with 2. rewrite <- Z.bit0_mod. rewrite Z.shiftr_spec by lia. rewrite Z.add_0_l.
  change 256 with (2 ^ 8). rewrite Z.mod_pow2_bits_low by lia. rewrite Z.div_pow2_bits by lia. do 2 f_equal. lia.
Qed.
Section Index.
  Variable P : sparam.
  Lemma index_bits_ok : forall m todo j b0 acc, bytes m -> (j + todo = sp_a P)%nat -> (b0 + sp_a P <= 8 * length m)%nat ->
    index_bits P j todo m (Z.of_nat (b0 + j)) acc =
    Z.lxor acc ((toInt m / 2 ^ Z.of_nat (8 * length m - (b0 + sp_a P))) mod 2 ^ Z.of_nat todo).
  Proof.
    induction todo; intros j b0 acc B Hj Hb; cbn [index_bits]; cbv zeta.
    - change (2 ^ Z.of_nat 0) with 1. rewrite Z.mod_1_r, Z.lxor_0_r. reflexivity.
    - rewrite msg_bit by (auto; lia). replace (Z.of_nat (b0 + j) + 1) with (Z.of_nat (b0 + S j)) by lia. rewrite IHtodo by (auto; lia).
      rewrite Z.lxor_assoc. apply f_equal. set (X := toInt m / 2 ^ Z.of_nat (8 * length m - (b0 + sp_a P))).
      assert (EB : Z.testbit (toInt m) (Z.of_nat (8 * length m - 1 - (b0 + j))) = Z.testbit X (Z.of_nat todo)).
      { unfold X. rewrite Z.div_pow2_bits by lia. f_equal. lia. }
      rewrite EB. replace (sp_a P - 1 - j)%nat with todo by lia. apply Z.bits_inj'. intros k Hk. rewrite Z.lxor_spec, Z.shiftl_spec by lia.
      destruct (Z.lt_trichotomy k (Z.of_nat todo)) as [C|[->|C]].
      + rewrite Z.testbit_neg_r by lia. rewrite !Z.mod_pow2_bits_low by lia. destruct (Z.testbit X k); reflexivity.
      + rewrite Z.sub_diag. rewrite Z.mod_pow2_bits_high by lia. rewrite Z.mod_pow2_bits_low by lia. rewrite xorb_false_r. destruct (Z.testbit X (Z.of_nat todo)); reflexivity.
      + rewrite !Z.mod_pow2_bits_high by lia. rewrite xorb_false_r. destruct (Z.testbit X (Z.of_nat todo)); cbn [Z.b2z]. apply Z.bits_above_log2; cbn; lia. apply Z.bits_0.
  Qed.
  Theorem indices_ok : forall m, bytes m -> (sp_a P * sp_k P <= 8 * length m)%nat -> message_to_indices P m = base_2b m (sp_a P) (sp_k P).
  Proof.
    intros m B L. unfold message_to_indices, base_2b. apply map_ext_in. intros i Hi. apply in_seq in Hi.
    rewrite <- (Nat.add_0_r (i * sp_a P)). rewrite index_bits_ok; [|auto|lia|nia]. rewrite Z.lxor_0_l. do 4 f_equal. lia.
  Qed.
End Index.
