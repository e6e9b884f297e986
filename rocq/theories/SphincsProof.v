(** Key generation, signing and verification of the library against Algorithms 18-20 of FIPS 205. *)
From Coq Require Znumtheory.
From Verif Require Import Bytes Words ZUtil KeccakModel Sha3Model KeccakBytes Fips202 UtilModel UtilProof KyberModel KyberSample KyberKem DilithiumModel
  DilithiumSample DilithiumScheme DilithiumHint DilithiumVerify SphincsModel SlhSpec SlhCorrect SphincsAddr SphincsWots SphincsTree.

(** what is used of a parameter set and its row in Table 2 *)
Record sp_ok (P : sparam) (p : slhp) : Prop := mkOK {
  ok_n : f_n p = sp_n P; ok_n32 : (16 <= sp_n P <= 32)%nat;
  ok_h : f_h p = sp_h P; ok_d : f_d p = sp_d P; ok_a : f_a p = sp_a P; ok_k : f_k p = sp_k P;
  ok_hp : f_hp p = sp_th P; ok_hd : (f_h p = f_d p * f_hp p)%nat;
  ok_th : (1 <= sp_th P <= 9)%nat; ok_d22 : (2 <= sp_d P <= 22)%nat; ok_a14 : (1 <= sp_a P <= 14)%nat; ok_k35 : (1 <= sp_k P <= 35)%nat;
  ok_tb : (sp_th P * (sp_d P - 1) <= 64)%nat;
  ok_m : f_m p = (sp_fors_msg P + (tree_bits P + 7) / 8 + (sp_th P + 7) / 8)%nat;
  ok_lb : ((sp_h P + 8 * sp_d P - 1) / (8 * sp_d P) = (sp_th P + 7) / 8)%nat
}.
Definition slh_pairs : list (sparam * slhp) :=
  [(SHAKE_128s, SLH_128s); (SHAKE_128f, SLH_128f); (SHAKE_192s, SLH_192s); (SHAKE_192f, SLH_192f); (SHAKE_256s, SLH_256s); (SHAKE_256f, SLH_256f)].
Lemma pairs_ok : forall P p, In (P, p) slh_pairs -> sp_ok P p.
Proof.
  intros P p H. cbn [slh_pairs In] in H. repeat destruct H as [H|H]; try contradiction; injection H as <- <-; constructor;
    cbv [SHAKE_128s SHAKE_128f SHAKE_192s SHAKE_192f SHAKE_256s SHAKE_256f SLH_128s SLH_128f SLH_192s SLH_192f SLH_256s SLH_256f
         sp_n sp_h sp_d sp_a sp_k sp_th f_n f_h f_d f_a f_k f_hp f_m sp_fors_msg tree_bits]; try reflexivity; vm_compute; lia.
Qed.

Ltac wfa := unfold wfA in *; cbn [A_layer A_tree A_type A_w1 A_w2 A_w3] in *;
  unfold AT_FORSPRF, AT_FORSTREE, AT_FORSPK, AT_WOTS, AT_WOTSPK, AT_HASHTREE, TREE, WOTS_PK, WOTS_HASH, FORS_TREE, FORS_ROOTS, FORS_PRF, WOTS_PRF in *; lia.
Section Top.
  Variable P : sparam.
  Variable p : slhp.
  Hypothesis OK : sp_ok P p.
  Local Notation n := (sp_n P).
  Let Hn := ok_n P p OK.
  Let Hn32 := ok_n32 P p OK.
  Variables pub sk : list Z.
  Hypothesis Bpub : node n pub.
  Hypothesis Bsk : node n sk.

  Lemma cut_nodes : forall k (a : list Z), bytes a -> length a = (k * n)%nat -> Forall (node n) (cut k n a) /\ length (cut k n a) = k.
  Proof.
    induction k; intros a B L; cbn [cut length]. split; [constructor|reflexivity]. destruct (IHk (skipn n a)) as [F E].
    apply bytes_skipn; auto. rewrite skipn_length. nia. split; [|lia]. constructor; auto. split. apply bytes_firstn; auto. rewrite firstn_length. nia.
  Qed.
  Lemma wlen_eq : sp_len P = wlen p.
  Proof. apply len_ok; auto. Qed.
  Lemma wots_bytes_eq : sp_wots_bytes P = (wlen p * n)%nat.
  Proof. unfold sp_wots_bytes. rewrite wlen_eq. reflexivity. Qed.
  Lemma layer_eq : sp_layer_bytes P = xmss_bytes p.
  Proof. unfold sp_layer_bytes, xmss_bytes. rewrite wots_bytes_eq, (ok_n P p OK), (ok_hp P p OK). lia. Qed.

  Definition subA (l t : Z) : ADRS := mkADRS l t 0 0 0 0.
  Lemma pkGen_node : forall A, node n (wots_pkGen p pub sk A).
  Proof.
    intros A. apply T_node with (P := P); auto. apply nodes_concat with (n := n). apply Forall_forall. intros x Hx. apply in_map_iff in Hx. destruct Hx as (j & <- & _).
    apply chain_node with (P := P); auto. apply PRF_node with (P := P); auto.
  Qed.
  Lemma xmss_node_node : forall A z i, node n (xmss_node p pub sk i z A).
  Proof.
    intros A. induction z; intros i; cbn [xmss_node]. apply pkGen_node. apply T_node with (P := P); auto. apply node_app with (n := n); apply IHz.
  Qed.

  (** ** [merkle_sign] *)
  Lemma merkle_ok : forall mem root l t w1 w2 w3 v2 v3 ty ty' leaf, node n root -> 0 <= l < 256 -> 0 <= t < 2 ^ 64 -> bytes mem -> length mem = sp_layer_bytes P ->
    wfA (mkADRS l t ty w1 w2 w3) -> wfA (mkADRS l t ty' 0 v2 v3) -> 0 <= leaf ->
    exists sg b2 b3, wfA (mkADRS l t TREE 0 b2 b3) /\
      merkle_sign P pub sk mem root (adrs_bytes (mkADRS l t ty w1 w2 w3)) (adrs_bytes (mkADRS l t ty' 0 v2 v3)) leaf =
      Some (sg, xmss_node p pub sk 0 (sp_th P) (subA l t), adrs_bytes (mkADRS l t TREE 0 b2 b3)) /\
      (leaf < 2 ^ Z.of_nat (sp_th P) -> sg = xmss_sign p pub root sk leaf (subA l t)).
  Proof.
    intros mem root l t w1 w2 w3 v2 v3 ty ty' leaf Hr Hl Ht Bm Lm Ww Wt Hleaf. unfold merkle_sign. cbv zeta.
    assert (W0 : wfA (mkADRS 0 0 0 0 0 0)) by (wfa). assert (W1 : wfA (mkADRS 0 0 WOTS_PK 0 0 0)) by (wfa).
    rewrite set_type_ok by (auto; wfa). rewrite adr0_ok. rewrite set_type_ok by (auto; wfa).
    cbn [A_layer A_tree A_type A_w1 A_w2 A_w3]. change AT_WOTSPK with WOTS_PK. change AT_HASHTREE with TREE. rewrite !copy_subtree_ok by auto. cbn [A_layer A_tree A_type A_w1 A_w2 A_w3].
    pose proof (ok_th P p OK) as TH.
    assert (LL : sp_layer_bytes P = (sp_len P * n + sp_th P * n)%nat) by (unfold sp_layer_bytes, sp_wots_bytes; lia).
    destruct (cut_nodes (sp_len P) (firstn (sp_wots_bytes P) mem)) as [F1 L1]. { apply bytes_firstn; auto. } { rewrite firstn_length. unfold sp_wots_bytes. lia. }
    destruct (cut_nodes (sp_th P) (skipn (sp_wots_bytes P) mem)) as [F2 L2]. { apply bytes_skipn; auto. } { rewrite skipn_length. unfold sp_wots_bytes. lia. }
    set (sigs := cut (sp_len P) n (firstn (sp_wots_bytes P) mem)) in *. set (auth := cut (sp_th P) n (skipn (sp_wots_bytes P) mem)) in *. clearbody sigs auth. rewrite wlen_eq in L1.
    assert (P9 : 2 ^ Z.of_nat (sp_th P) <= 2 ^ 9) by (apply Z.pow_le_mono_r; lia).
    assert (WB : wfB l t TREE 0) by (unfold wfB, TREE; lia).
    set (Lf := fun i => wots_pkGen p pub sk (setTKP (subA l t) WOTS_HASH i)).
    pose (Inv := fun (idx : Z) (i : leafinfo) => LIok P p l t i /\ (leaf < idx -> li_sig i = wots_parts p pub sk root l t leaf)).
    assert (HG : forall idx i, 0 <= idx < 2 ^ Z.of_nat (sp_th P) -> Inv idx i ->
      exists i', wots_gen_leafx1 P pub sk (chain_lengths P root) leaf (idx + o (sp_th P) 0 0) i = (Lf (o (sp_th P) 0 0 + idx), i') /\ Inv (idx + 1) i').
    { intros idx i Hi [I1 I2]. unfold o. rewrite Z.mul_0_l, Z.add_0_r, Z.add_0_l.
      destruct (gen_leaf_ok P p Hn Hn32 pub sk Bpub Bsk root leaf idx i l t) as (i' & E & J1 & J2); auto; try lia.
      exists i'. split; [exact E|]. split; [exact J1|]. intros C. rewrite J2. destruct (Z.eqb_spec idx leaf) as [->|Ne]; [reflexivity|]. apply I2. lia. }
    assert (I0 : Inv 0 (mkLI sigs (adrs_bytes (mkADRS l t 0 0 0 0)) (adrs_bytes (mkADRS l t WOTS_PK 0 0 0)))).
    { split; [|intros; lia]. unfold LIok. cbn [li_leaf li_pk li_sig]. split; [exists 0, 0, 0; repeat split; lia|]. split; [exists 0; split; [lia|reflexivity]|]. auto. }
    unfold wfA in Wt. cbn [A_layer A_tree A_type A_w1 A_w2 A_w3] in Wt.
    destruct (treehash_ok P p Hn Hn32 pub Bpub l t TREE 0 WB Lf (fun i => pkGen_node _) (sp_th P) ltac:(lia) 0 ltac:(lia) ltac:(lia) leaf Hleaf leafinfo
      (wots_gen_leafx1 P pub sk (chain_lengths P root) leaf) Inv HG _ auth v2 v3 I0 F2 L2 ltac:(lia) ltac:(lia)) as (au & i' & b2 & b3 & Hb2 & Hb3 & E & [J1 J2] & HA).
    unfold o in E at 1. rewrite Z.mul_0_l in E. rewrite E.
    exists (concat (li_sig i') ++ concat au), b2, b3. split; [apply wfB_A; auto|]. split.
    - rewrite xmss_merk. reflexivity.
    - intros C. rewrite HA by lia. rewrite J2 by lia. unfold xmss_sign. apply f_equal2; [reflexivity|]. rewrite (ok_hp P p OK). unfold auth_of. apply f_equal. apply map_ext. intros g.
      rewrite xmss_merk. unfold o, sib. rewrite Z.mul_0_l, Z.add_0_l. reflexivity.
  Qed.

  Theorem gen_root_ok : forall root0, node n root0 -> merkle_gen_root P pub sk root0 = Some (slh_root p pub sk).
  Proof.
    intros root0 H0. unfold merkle_gen_root. cbv zeta. pose proof (ok_d22 P p OK) as D. rewrite adr0_ok. rewrite set_layer_ok by (wfa).
    cbn [A_layer A_tree A_type A_w1 A_w2 A_w3].
    destruct (merkle_ok (zeros (sp_layer_bytes P)) root0 (Z.of_nat (sp_d P) - 1) 0 0 0 0 0 0 0 0 0xffffffff) as (sg & b2 & b3 & _ & E & _); auto; try lia.
    { apply bytes_zeros. } { apply length_zeros. } { wfa. } { wfa. }
    rewrite E. unfold slh_root, ht_adrs, subA. rewrite (ok_hp P p OK), (ok_d P p OK). replace (Z.of_nat (sp_d P - 1)) with (Z.of_nat (sp_d P) - 1) by lia. reflexivity.
  Qed.

  (** ** FORS *)
  Lemma skGen_node : forall A i, node n (fors_skGen p pub sk A i).
  Proof. intros. apply PRF_node with (P := P); auto. Qed.
  Definition FA (t kp : Z) : ADRS := mkADRS 0 t FORS_TREE kp 0 0.
  Lemma fors_leaf_node : forall t kp i, node n (T_l p pub (setNode (FA t kp) 0 i) (fors_skGen p pub sk (FA t kp) i)).
  Proof. intros. apply T_node with (P := P); auto. apply skGen_node. Qed.
  Definition fors_part (t kp : Z) (i x : Z) : list Z :=
    fors_skGen p pub sk (FA t kp) (i * 2 ^ Z.of_nat (f_a p) + x) ++
    concat (map (fun j => fors_node p pub sk (i * 2 ^ Z.of_nat (f_a p - j) + Z.lxor (x / 2 ^ Z.of_nat j) 1) j (FA t kp)) (seq 0 (f_a p))).
  Lemma fors_sign_loop_ok : forall inds i mem t kp ty ty' a2 a3 b2 b3, 0 <= t < 2 ^ 64 -> 0 <= kp < 2 ^ 32 -> 0 <= i -> i + Z.of_nat (length inds) <= 35 ->
    Forall (fun x => 0 <= x < 2 ^ Z.of_nat (sp_a P)) inds -> bytes mem -> length mem = (length inds * ((sp_a P + 1) * n))%nat ->
    0 <= ty < 256 -> 0 <= ty' < 256 -> 0 <= a2 < 256 -> 0 <= a3 < 2 ^ 32 -> b2 = 0 -> 0 <= b3 < 2 ^ 32 ->
    fors_sign_loop P pub sk i inds mem (adrs_bytes (mkADRS 0 t ty kp a2 a3)) (adrs_bytes (mkADRS 0 t ty' kp b2 b3)) =
    Some (concat (map (fun j => fors_part t kp (i + Z.of_nat j) (nth j inds 0)) (seq 0 (length inds))),
          map (fun j => fors_node p pub sk (i + Z.of_nat j) (f_a p) (FA t kp)) (seq 0 (length inds))).
  Proof.
    induction inds as [|x inds IH]; intros i mem t kp ty ty' a2 a3 b2 b3 Ht Hkp Hi Hb F Bm Lm Hty Hty' Ha2 Ha3 -> Hb3; cbn [fors_sign_loop length seq map concat]; [reflexivity|].
    cbn [length] in Hb, Lm. inversion F as [|? ? Hx F']; subst. cbv zeta. pose proof (ok_a14 P p OK) as A14.
    assert (P14 : 2 ^ Z.of_nat (sp_a P) <= 2 ^ 14) by (apply Z.pow_le_mono_r; lia). pose proof (pow2pos (sp_a P)) as PP.
    rewrite Z.shiftl_1_l. set (K := 2 ^ Z.of_nat (sp_a P)) in *.
    assert (BND : 0 <= i * K /\ (i + 1) * K <= 35 * 2 ^ 14) by nia.
    assert (EU : u32 (x + i * K) = i * K + x) by (unfold u32; rewrite Z.mod_small by lia; lia). rewrite EU.
    rewrite set_height_ok by (wfa). cbn [A_layer A_tree A_type A_w1 A_w2 A_w3].
    rewrite set_index_ok by (wfa). cbn [A_layer A_tree A_type A_w1 A_w2 A_w3].
    rewrite set_type_ok by (wfa). cbn [A_layer A_tree A_type A_w1 A_w2 A_w3].
    rewrite set_type_ok by (wfa). cbn [A_layer A_tree A_type A_w1 A_w2 A_w3].
    rewrite (prf_ok P p Hn) by (auto; lia). change AT_FORSTREE with FORS_TREE.
    destruct (cut_nodes (sp_a P) (firstn (sp_a P * n) (skipn n mem))) as [F2 L2]. { apply bytes_firstn, bytes_skipn; auto. } { rewrite firstn_length, skipn_length. nia. }
    set (auth := cut (sp_a P) n (firstn (sp_a P * n) (skipn n mem))) in *. clearbody auth.
    set (Lf := fun i => T_l p pub (setNode (FA t kp) 0 i) (fors_skGen p pub sk (FA t kp) i)).
    pose (Inv := fun (_ : Z) (a : list Z) => exists ty c3, 0 <= ty < 256 /\ 0 <= c3 < 2 ^ 32 /\ a = adrs_bytes (mkADRS 0 t ty kp 0 c3)).
    assert (EO : o (sp_a P) i 0 = i * K) by (unfold o; rewrite Nat.sub_0_r; reflexivity).
    assert (HG : forall idx a, 0 <= idx < 2 ^ Z.of_nat (sp_a P) -> Inv idx a ->
      exists a', fors_gen_leafx1 P pub sk (idx + o (sp_a P) i 0) a = (Lf (o (sp_a P) i 0 + idx), a') /\ Inv (idx + 1) a').
    { intros idx a Hidx (ty0 & c3 & H0 & H3 & ->). fold K in Hidx. rewrite EO. unfold fors_gen_leafx1. cbv zeta.
      rewrite set_index_ok by (wfa). cbn [A_layer A_tree A_type A_w1 A_w2 A_w3].
      rewrite set_type_ok by (wfa). cbn [A_layer A_tree A_type A_w1 A_w2 A_w3].
      rewrite set_type_ok by (wfa). cbn [A_layer A_tree A_type A_w1 A_w2 A_w3].
      rewrite (prf_ok P p Hn) by (auto; lia). rewrite (thash_node P p Hn Hn32) by (auto; apply PRF_node with (P := P); auto).
      eexists. split. rewrite (Z.add_comm (i * K)). reflexivity. exists AT_FORSTREE, (idx + i * K). unfold AT_FORSTREE. repeat split; lia. }
    assert (I0 : Inv 0 (adrs_bytes (mkADRS 0 t ty' kp 0 b3))) by (exists ty', b3; auto).
    assert (WB : wfB 0 t FORS_TREE kp) by (unfold wfB, FORS_TREE; lia).
    destruct (treehash_ok P p Hn Hn32 pub Bpub 0 t FORS_TREE kp WB Lf (fun i => fors_leaf_node t kp i) (sp_a P) ltac:(lia) i Hi ltac:(fold K; lia) x ltac:(lia) _
      (fors_gen_leafx1 P pub sk) Inv HG _ auth 0 (i * K + x) I0 F2 L2 ltac:(lia) ltac:(lia)) as (au & a' & e2 & e3 & He2 & He3 & E & (ty1 & c3 & Hty1 & Hc3 & ->) & HA).
    rewrite EO in E. rewrite E.
    rewrite (IH (i + 1) (skipn ((sp_a P + 1) * n) mem) t kp FORS_TREE ty1 e2 e3 0 c3); auto; try lia.
    2:{ apply bytes_skipn; auto. } 2:{ rewrite skipn_length. nia. } 2:{ unfold FORS_TREE; lia. }
    apply f_equal. apply f_equal2.
    - cbn [nth]. rewrite HA by lia. rewrite app_assoc. apply f_equal2.
      + unfold fors_part. rewrite (ok_a P p OK). fold K. replace (i + Z.of_nat 0) with i by lia. apply f_equal2; [reflexivity|]. apply f_equal. unfold auth_of. apply map_ext. intros g.
        rewrite fors_merk. unfold o, sib. reflexivity.
      + apply f_equal. rewrite <- seq_shift, map_map. apply map_ext. intros j. replace (i + Z.of_nat (S j)) with (i + 1 + Z.of_nat j) by lia. reflexivity.
    - apply f_equal2.
      + rewrite fors_merk, (ok_a P p OK). replace (i + Z.of_nat 0) with i by lia. reflexivity.
      + rewrite <- seq_shift, map_map. apply map_ext. intros j. replace (i + Z.of_nat (S j)) with (i + 1 + Z.of_nat j) by lia. reflexivity.
  Qed.
  Lemma msg_bytes : forall (m : list Z), length m = sp_fors_msg P -> (sp_a P * sp_k P <= 8 * length m)%nat.
  Proof.
    intros m ->. unfold sp_fors_msg. pose proof (Nat.div_mod (sp_a P * sp_k P + 7) 8 ltac:(lia)). pose proof (Nat.mod_upper_bound (sp_a P * sp_k P + 7) 8 ltac:(lia)). lia.
  Qed.
  Lemma inds_range : forall m, Forall (fun x => 0 <= x < 2 ^ Z.of_nat (sp_a P)) (base_2b m (sp_a P) (sp_k P)).
  Proof. intros. apply Forall_forall. intros x Hx. apply (In_nth _ _ 0) in Hx. destruct Hx as (i & _ & <-). apply base_2b_range. Qed.
  Lemma fors_node_node : forall t kp z i, node n (fors_node p pub sk i z (FA t kp)).
  Proof. intros t kp. induction z; intros i; cbn [fors_node]. apply fors_leaf_node. apply T_node with (P := P); auto. apply node_app with (n := n); apply IHz. Qed.

  Theorem fors_sign_ok : forall mem m t kp w2 w3, bytes mem -> length mem = sp_fors_bytes P -> bytes m -> length m = sp_fors_msg P ->
    wfA (mkADRS 0 t 0 kp w2 w3) ->
    SphincsModel.fors_sign P pub sk mem m (adrs_bytes (mkADRS 0 t 0 kp w2 w3)) = Some (SlhSpec.fors_sign p pub m sk (fors_adrs t kp), fors_pk p pub sk (fors_adrs t kp)).
  Proof.
    intros mem m t kp w2 w3 Bm Lm Bmm Lmm Ww. unfold SphincsModel.fors_sign. cbv zeta. rewrite adr0_ok. rewrite copy_keypair_ok by (auto; wfa).
    cbn [A_layer A_tree A_type A_w1 A_w2 A_w3]. unfold wfA in Ww. cbn [A_layer A_tree A_type A_w1 A_w2 A_w3] in Ww. rewrite indices_ok by (auto; apply msg_bytes; auto).
    pose proof (ok_k35 P p OK) as K35. pose proof (ok_a14 P p OK) as A14.
    rewrite (fors_sign_loop_ok (base_2b m (sp_a P) (sp_k P)) 0 mem t kp 0 0 0 0 0 0); auto; try lia; [|rewrite base_2b_len; lia|apply inds_range|rewrite base_2b_len, Lm; unfold sp_fors_bytes; ring].
    rewrite base_2b_len. rewrite set_type_ok by (wfa). cbn [A_layer A_tree A_type A_w1 A_w2 A_w3].
    assert (NR : Forall (node n) (map (fun j => fors_node p pub sk (0 + Z.of_nat j) (f_a p) (FA t kp)) (seq 0 (sp_k P)))).
    { apply Forall_forall. intros y Hy. apply in_map_iff in Hy. destruct Hy as (j & <- & _). apply fors_node_node. }
    destruct (nodes_concat n _ NR) as [BR LR]. rewrite map_length, seq_length in LR.
    rewrite (thash_ok P p Hn) by (auto; nia). apply f_equal. apply f_equal2.
    - unfold SlhSpec.fors_sign, fors_part. rewrite (ok_k P p OK), (ok_a P p OK). apply f_equal. apply map_ext. intros j. rewrite Z.add_0_l. unfold fors_idx. rewrite (ok_a P p OK), (ok_k P p OK). reflexivity.
    - unfold fors_pk. rewrite (ok_k P p OK). reflexivity.
  Qed.

  (** ** the signing loop *)
  Lemma tree_step : forall todo tree, 0 <= tree < 2 ^ Z.of_nat (sp_th P * todo) -> (sp_th P * todo <= 64)%nat -> (1 <= todo)%nat ->
    0 <= Z.shiftr tree (Z.of_nat (sp_th P)) < 2 ^ Z.of_nat (sp_th P * (todo - 1)) /\
    Z.shiftr tree (Z.of_nat (sp_th P)) = tree / 2 ^ Z.of_nat (f_hp p) /\
    u32 (Z.land tree (Z.shiftl 1 (Z.of_nat (sp_th P)) - 1)) = tree mod 2 ^ Z.of_nat (f_hp p) /\ 0 <= tree mod 2 ^ Z.of_nat (f_hp p) < 2 ^ Z.of_nat (sp_th P).
  Proof.
    intros todo tree Ht H64 Htd. pose proof (ok_th P p OK) as TH. rewrite (ok_hp P p OK). pose proof (pow2pos (sp_th P)) as PP.
    assert (P9 : 2 ^ Z.of_nat (sp_th P) <= 2 ^ 9) by (apply Z.pow_le_mono_r; lia).
    assert (M : 0 <= tree mod 2 ^ Z.of_nat (sp_th P) < 2 ^ Z.of_nat (sp_th P)) by (apply Z.mod_pos_bound; lia).
    rewrite Z.shiftr_div_pow2 by lia. split; [|split; [reflexivity|split; [|exact M]]].
    - split; [apply Z.div_pos; lia|]. apply Z.div_lt_upper_bound; [lia|]. rewrite <- Z.pow_add_r by apply Nat2Z.is_nonneg. rewrite <- Nat2Z.inj_add. replace (sp_th P + sp_th P * (todo - 1))%nat with (sp_th P * todo)%nat by nia. lia.
    - rewrite Z.shiftl_1_l. rewrite Z.sub_1_r, <- Z.ones_equiv. rewrite Z.land_ones by lia. unfold u32. apply Z.mod_small. lia.
  Qed.
  Lemma sign_layers_ok : forall todo i mem root l0 t0 ty kp a2 a3 l1 t1 v2 v3 tree leaf,
    0 <= i -> i + Z.of_nat todo <= 22 -> node n root -> bytes mem -> length mem = (todo * sp_layer_bytes P)%nat ->
    wfA (mkADRS l0 t0 ty kp a2 a3) -> wfA (mkADRS l1 t1 TREE 0 v2 v3) ->
    (sp_th P * todo <= 73)%nat -> (sp_th P * (todo - 1) <= 64)%nat -> 0 <= tree < 2 ^ Z.of_nat (sp_th P * (todo - 1)) -> 0 <= leaf < 2 ^ Z.of_nat (sp_th P) ->
    sign_layers P todo i pub sk mem root (adrs_bytes (mkADRS l0 t0 ty kp a2 a3)) (adrs_bytes (mkADRS l1 t1 TREE 0 v2 v3)) tree leaf =
    Some (ht_sign_from p pub todo (Z.to_nat i) root sk tree leaf).
  Proof.
    induction todo; intros i mem root l0 t0 ty kp a2 a3 l1 t1 v2 v3 tree leaf Hi Hit Hr Bm Lm W0 W1 H73 H64 Ht Hl; cbn [sign_layers ht_sign_from]; [reflexivity|]. cbv zeta.
    pose proof (ok_th P p OK) as TH. assert (P9 : 2 ^ Z.of_nat (sp_th P) <= 2 ^ 9) by (apply Z.pow_le_mono_r; lia).
    assert (T64 : 0 <= tree < 2 ^ 64).
    { split; [lia|]. apply Z.lt_le_trans with (2 ^ Z.of_nat (sp_th P * (S todo - 1))); [lia|]. apply Z.pow_le_mono_r; lia. }
    rewrite set_layer_ok by (auto; lia). cbn [A_layer A_tree A_type A_w1 A_w2 A_w3].
    assert (W2 : wfA (mkADRS i t1 TREE 0 v2 v3)) by (wfa).
    rewrite set_tree_ok by auto. cbn [A_layer A_tree A_type A_w1 A_w2 A_w3].
    assert (W3 : wfA (mkADRS i tree TREE 0 v2 v3)) by (wfa).
    rewrite copy_subtree_ok by auto. cbn [A_layer A_tree A_type A_w1 A_w2 A_w3].
    assert (W4 : wfA (mkADRS i tree ty kp a2 a3)) by (wfa).
    rewrite set_keypair_ok by auto. cbn [A_layer A_tree A_type A_w1 A_w2 A_w3].
    assert (W5 : wfA (mkADRS i tree ty leaf a2 a3)) by (wfa).
    cbn [Nat.mul] in Lm.
    destruct (merkle_ok (firstn (sp_layer_bytes P) mem) root i tree leaf a2 a3 v2 v3 ty TREE leaf) as (sg & b2 & b3 & Wb & E & HS); auto; try lia.
    { apply bytes_firstn; auto. } { rewrite firstn_length. lia. }
    rewrite E. rewrite HS by lia.
    assert (EA : ht_adrs (Z.to_nat i) tree = subA i tree) by (unfold ht_adrs, subA; rewrite Z2Nat.id by lia; reflexivity). rewrite EA.
    rewrite xmss_correct by (rewrite (ok_hp P p OK); lia). rewrite (ok_hp P p OK).
    destruct todo as [|todo].
    - reflexivity.
    - cbn [Nat.sub] in *. destruct (tree_step (S todo) tree) as (T1 & T2 & T3 & T4); auto; try lia.
      rewrite (IHtodo (i + 1) (skipn (sp_layer_bytes P) mem) (xmss_node p pub sk 0 (sp_th P) (subA i tree)) i tree ty leaf a2 a3 i tree b2 b3); auto; try lia.
      + replace (Z.to_nat (i + 1)) with (Z.to_nat i + 1)%nat by lia. rewrite T2, T3. rewrite (ok_hp P p OK). reflexivity.
      + apply xmss_node_node.
      + apply bytes_skipn; auto.
      + rewrite skipn_length. lia.
  Qed.

  (** ** verification *)
  Lemma blocks_firstn : forall k L (X : list Z), (k * n <= L)%nat -> blocks k n (firstn L X) = blocks k n X.
  Proof.
    intros k L X H. unfold blocks. apply map_ext_in. intros i Hi. apply in_seq in Hi. unfold slice. rewrite skipn_firstn_comm, firstn_firstn.
    replace (Nat.min n (L - i * n)) with n by nia. reflexivity.
  Qed.
  Definition fors_root_at (t kp i x : Z) (s : list Z) : list Z :=
    climb p pub (FA t kp) (T_l p pub (setNode (FA t kp) 0 (i * 2 ^ Z.of_nat (f_a p) + x)) (firstn n s)) x (i * 2 ^ Z.of_nat (f_a p) + x) 0 (blocks (f_a p) n (skipn n s)).
  Lemma climb_node : forall A auth X idx t z, node n X -> Forall (node n) auth -> node n (climb p pub A X idx t z auth).
  Proof.
    intros A. induction auth as [|a auth IH]; intros X idx t z HX F; cbn [climb]; [exact HX|]. inversion F; subst. apply IH; auto.
    apply T_node with (P := P); auto. destruct (Z.even idx); apply node_app with (n := n); auto.
  Qed.
  Lemma blocks_node : forall k (X : list Z), bytes X -> (k * n <= length X)%nat -> Forall (node n) (blocks k n X).
  Proof.
    intros k X B L. unfold blocks. apply Forall_forall. intros y Hy. apply in_map_iff in Hy. destruct Hy as (i & <- & Hi). apply in_seq in Hi. split. apply bytes_slice; auto. apply length_slice. nia.
  Qed.
  Lemma fors_pk_loop_ok : forall inds i sig t kp a2 a3, 0 <= t < 2 ^ 64 -> 0 <= kp < 2 ^ 32 -> 0 <= i -> i + Z.of_nat (length inds) <= 35 ->
    Forall (fun x => 0 <= x < 2 ^ Z.of_nat (sp_a P)) inds -> bytes sig -> length sig = (length inds * fors_piece p)%nat -> 0 <= a2 < 256 -> 0 <= a3 < 2 ^ 32 ->
    fors_pk_loop P pub i inds sig (adrs_bytes (mkADRS 0 t FORS_TREE kp a2 a3)) =
    map (fun j => fors_root_at t kp (i + Z.of_nat j) (nth j inds 0) (slice sig (j * fors_piece p) (fors_piece p))) (seq 0 (length inds)).
  Proof.
    assert (EP : fors_piece p = (sp_a P * n + n)%nat) by (unfold fors_piece; rewrite (ok_a P p OK), (ok_n P p OK); ring).
    induction inds as [|x inds IH]; intros i sig t kp a2 a3 Ht Hkp Hi Hb F Bs Ls Ha2 Ha3; cbn [fors_pk_loop length seq map]; [reflexivity|].
    cbn [length] in Hb, Ls. inversion F as [|? ? Hx F']; subst. cbv zeta. pose proof (ok_a14 P p OK) as A14.
    assert (P14 : 2 ^ Z.of_nat (sp_a P) <= 2 ^ 14) by (apply Z.pow_le_mono_r; lia). pose proof (pow2pos (sp_a P)) as PP.
    rewrite Z.shiftl_1_l. set (K := 2 ^ Z.of_nat (sp_a P)) in *.
    assert (BND : 0 <= i * K /\ (i + 1) * K <= 35 * 2 ^ 14) by nia.
    assert (EU : u32 (x + i * K) = i * K + x) by (unfold u32; rewrite Z.mod_small by lia; lia). rewrite EU.
    rewrite set_height_ok by wfa. cbn [A_layer A_tree A_type A_w1 A_w2 A_w3]. rewrite set_index_ok by wfa. cbn [A_layer A_tree A_type A_w1 A_w2 A_w3].
    assert (NF : node n (firstn n sig)). { split. apply bytes_firstn; auto. rewrite firstn_length. nia. }
    rewrite (thash_node P p Hn Hn32) by auto.
    assert (WB : wfB 0 t FORS_TREE kp) by (unfold wfB, FORS_TREE; lia).
    destruct (compute_root_ok P p Hn Hn32 pub Bpub 0 t FORS_TREE kp WB 0%nat ltac:(lia) 0 ltac:(lia) ltac:(vm_compute; discriminate) (T_l p pub (mkADRS 0 t FORS_TREE kp 0 (i * K + x)) (firstn n sig)) x i (skipn n sig) (sp_a P) 0 (i * K + x))
      as (b2 & b3 & Hb2 & Hb3 & E); auto; try (fold K; lia).
    { apply T_node with (P := P); auto. apply NF. } { apply bytes_skipn; auto. } { rewrite skipn_length. nia. }
    fold K in E. rewrite E.
    replace ((sp_a P + 1) * n)%nat with (fors_piece p) by lia. rewrite (IH (i + 1)); auto; try lia; [|apply bytes_skipn; auto|rewrite skipn_length; lia].
    apply f_equal2.
    - cbn [nth Nat.mul]. replace (i + Z.of_nat 0) with i by lia. unfold fors_root_at. rewrite (ok_a P p OK). fold K. unfold slice. rewrite skipn_O, firstn_firstn.
      replace (Nat.min n (fors_piece p)) with n by nia. rewrite skipn_firstn_comm, blocks_firstn by nia. reflexivity.
    - rewrite <- seq_shift, map_map. apply map_ext. intros j. cbn [nth]. replace (i + Z.of_nat (S j)) with (i + 1 + Z.of_nat j) by lia.
      unfold slice. rewrite skipn_skipn'. cbn [Nat.mul]. reflexivity.
  Qed.
  Theorem fors_pk_from_sig_ok : forall sig m t kp w2 w3, bytes sig -> length sig = (f_k p * fors_piece p)%nat -> bytes m -> length m = sp_fors_msg P ->
    wfA (mkADRS 0 t 0 kp w2 w3) ->
    fors_pk_from_sig P pub sig m (adrs_bytes (mkADRS 0 t 0 kp w2 w3)) = fors_pkFromSig p pub sig m (fors_adrs t kp).
  Proof.
    intros sig m t kp w2 w3 Bs Ls Bmm Lmm Ww. unfold fors_pk_from_sig. cbv zeta. rewrite adr0_ok. rewrite copy_keypair_ok by (auto; wfa).
    cbn [A_layer A_tree A_type A_w1 A_w2 A_w3]. unfold wfA in Ww. cbn [A_layer A_tree A_type A_w1 A_w2 A_w3] in Ww. rewrite indices_ok by (auto; apply msg_bytes; auto).
    pose proof (ok_k35 P p OK) as K35.
    rewrite !set_type_ok by wfa. cbn [A_layer A_tree A_type A_w1 A_w2 A_w3]. change AT_FORSTREE with FORS_TREE. change AT_FORSPK with FORS_ROOTS.
    rewrite fors_pk_loop_ok; auto; try lia; [|rewrite base_2b_len; lia|apply inds_range|rewrite base_2b_len, <- (ok_k P p OK); auto].
    rewrite base_2b_len.
    match goal with |- context [concat ?x] => assert (NR : Forall (node n) x) end.
    { apply Forall_forall. intros y Hy. apply in_map_iff in Hy. destruct Hy as (j & <- & Hj). apply in_seq in Hj.
      assert (EP : fors_piece p = (sp_a P * n + n)%nat) by (unfold fors_piece; rewrite (ok_a P p OK), (ok_n P p OK); ring).
      assert (LS : length (slice sig (j * fors_piece p) (fors_piece p)) = fors_piece p) by (apply length_slice; rewrite Ls, (ok_k P p OK); nia).
      unfold fors_root_at. apply climb_node. apply T_node with (P := P); auto. apply bytes_firstn, bytes_slice; auto.
      rewrite (ok_a P p OK). apply blocks_node. apply bytes_skipn, bytes_slice; auto. rewrite skipn_length, LS. lia. }
    destruct (nodes_concat n _ NR) as [BR LR]. rewrite map_length, seq_length in LR.
    rewrite (thash_ok P p Hn) by (auto; nia). unfold fors_pkFromSig. rewrite (ok_k P p OK). apply f_equal. apply f_equal. apply map_ext. intros j. rewrite Z.add_0_l.
    unfold fors_root_at, fors_idx. rewrite (ok_a P p OK), (ok_k P p OK), (ok_n P p OK). reflexivity.
  Qed.
  Lemma fors_pk_node : forall sig m A, bytes sig -> length sig = (f_k p * fors_piece p)%nat -> node n (fors_pkFromSig p pub sig m A).
  Proof.
    intros sig m A Bs Ls. apply T_node with (P := P); auto.
    match goal with |- bytes (concat ?x) => assert (NR : Forall (node n) x); [|apply (nodes_concat n _ NR)] end.
    apply Forall_forall. intros y Hy. apply in_map_iff in Hy. destruct Hy as (j & <- & Hj). apply in_seq in Hj. cbv zeta.
    assert (EP : fors_piece p = (sp_a P * n + n)%nat) by (unfold fors_piece; rewrite (ok_a P p OK), (ok_n P p OK); ring).
    assert (LS : length (slice sig (j * fors_piece p) (fors_piece p)) = fors_piece p) by (apply length_slice; rewrite Ls; nia).
    apply climb_node. apply T_node with (P := P); auto. apply bytes_firstn, bytes_slice; auto.
    rewrite (ok_a P p OK), (ok_n P p OK). apply blocks_node. apply bytes_skipn, bytes_slice; auto. rewrite skipn_length, LS. lia.
  Qed.

  Lemma verify_layers_ok : forall todo i sig root l0 t0 kp a2 a3 l1 t1 v2 v3 l2 t2 kp2 tree leaf,
    0 <= i -> i + Z.of_nat todo <= 22 -> node n root -> bytes sig -> length sig = (todo * sp_layer_bytes P)%nat ->
    wfA (mkADRS l0 t0 0 kp a2 a3) -> wfA (mkADRS l1 t1 TREE 0 v2 v3) -> wfA (mkADRS l2 t2 WOTS_PK kp2 0 0) -> a3 < 256 ->
    (sp_th P * (todo - 1) <= 64)%nat -> 0 <= tree < 2 ^ Z.of_nat (sp_th P * (todo - 1)) -> 0 <= leaf < 2 ^ Z.of_nat (sp_th P) ->
    verify_layers P todo i pub sig root (adrs_bytes (mkADRS l0 t0 0 kp a2 a3)) (adrs_bytes (mkADRS l1 t1 TREE 0 v2 v3)) (adrs_bytes (mkADRS l2 t2 WOTS_PK kp2 0 0)) tree leaf =
    ht_root_from p pub todo (Z.to_nat i) root sig tree leaf /\ node n (ht_root_from p pub todo (Z.to_nat i) root sig tree leaf).
  Proof.
    induction todo; intros i sig root l0 t0 kp a2 a3 l1 t1 v2 v3 l2 t2 kp2 tree leaf Hi Hit Hr Bm Lm W0 W1 Wp H3 H64 Ht Hl; cbn [verify_layers ht_root_from]; [auto|]. cbv zeta.
    pose proof (ok_th P p OK) as TH. assert (P9 : 2 ^ Z.of_nat (sp_th P) <= 2 ^ 9) by (apply Z.pow_le_mono_r; lia).
    assert (T64 : 0 <= tree < 2 ^ 64).
    { split; [lia|]. apply Z.lt_le_trans with (2 ^ Z.of_nat (sp_th P * (S todo - 1))); [lia|]. apply Z.pow_le_mono_r; lia. }
    rewrite set_layer_ok by (auto; lia). cbn [A_layer A_tree A_type A_w1 A_w2 A_w3].
    assert (W2 : wfA (mkADRS i t1 TREE 0 v2 v3)) by wfa.
    rewrite set_tree_ok by auto. cbn [A_layer A_tree A_type A_w1 A_w2 A_w3].
    assert (W3 : wfA (mkADRS i tree TREE 0 v2 v3)) by wfa.
    rewrite copy_subtree_ok by auto. cbn [A_layer A_tree A_type A_w1 A_w2 A_w3].
    assert (W4 : wfA (mkADRS i tree 0 kp a2 a3)) by wfa.
    rewrite set_keypair_ok by auto. cbn [A_layer A_tree A_type A_w1 A_w2 A_w3].
    assert (W5 : wfA (mkADRS i tree 0 leaf a2 a3)) by wfa.
    rewrite copy_keypair_ok by auto. cbn [A_layer A_tree A_type A_w1 A_w2 A_w3].
    cbn [Nat.mul] in Lm. assert (LL : sp_layer_bytes P = (wlen p * n + sp_th P * n)%nat) by (rewrite layer_eq; unfold xmss_bytes; rewrite (ok_hp P p OK), (ok_n P p OK); ring).
    assert (WB : wfB i tree 0 leaf) by (unfold wfB; lia).
    assert (A2 : 0 <= a2 < 256) by wfa. assert (A3 : 0 <= a3 < 256) by (split; [wfa|lia]).
    destruct (wots_pk_ok P p Hn Hn32 pub Bpub (firstn (sp_wots_bytes P) sig) root i tree 0 leaf a2 a3 WB A2 A3 Hr) as (c' & h' & Hc' & Hh' & E).
    { apply bytes_firstn; auto. } { rewrite firstn_length, wots_bytes_eq. lia. }
    rewrite E.
    assert (NW : Forall (node n) (map (fun j => chain p pub (slice (firstn (sp_wots_bytes P) sig) (j * n) n) (nth j (wots_digits p root) 0)
              (Z.to_nat (15 - nth j (wots_digits p root) 0)) (mkADRS i tree 0 leaf (Z.of_nat j) 0)) (seq 0 (wlen p)))).
    { apply Forall_forall. intros y Hy. apply in_map_iff in Hy. destruct Hy as (j & <- & Hj). apply in_seq in Hj. apply chain_node with (P := P); auto.
      split. apply bytes_slice, bytes_firstn; auto. apply length_slice. rewrite firstn_length, wots_bytes_eq. nia. }
    destruct (nodes_concat n _ NW) as [BW LW]. rewrite map_length, seq_length in LW. pose proof (wlen_small P p Hn Hn32) as WS.
    assert (W6 : wfA (mkADRS i tree WOTS_PK leaf 0 0)) by wfa.
    rewrite (thash_ok P p Hn) by (auto; nia).
    set (lf := T_l p pub (mkADRS i tree WOTS_PK leaf 0 0) _). assert (NL : node n lf) by (apply T_node with (P := P); auto).
    assert (WT : wfB i tree TREE 0) by (unfold wfB, TREE; lia). assert (V2 : 0 <= v2 < 256) by wfa. assert (V3 : 0 <= v3 < 2 ^ 32) by wfa.
    set (au := firstn (sp_th P * n) (skipn (sp_wots_bytes P) sig)).
    assert (Bau : bytes au) by (apply bytes_firstn, bytes_skipn; auto). assert (Lau : length au = (sp_th P * n)%nat) by (unfold au; rewrite firstn_length, skipn_length, wots_bytes_eq; lia).
    destruct (compute_root_ok P p Hn Hn32 pub Bpub i tree TREE 0 WT 0%nat ltac:(lia) 0 ltac:(lia) ltac:(vm_compute; discriminate) lf leaf 0 au (sp_th P) v2 v3)
      as (b2 & b3 & Hb2 & Hb3 & E2); auto; try lia.
    rewrite Z.mul_0_l in E2. rewrite E2.
    assert (EX : climb p pub (mkADRS i tree TREE 0 0 0) lf leaf (0 + leaf) 0 (blocks (sp_th P) n au) =
                 xmss_pkFromSig p pub leaf (firstn (xmss_bytes p) sig) root (ht_adrs (Z.to_nat i) tree)).
    { unfold xmss_pkFromSig, ht_adrs. rewrite Z2Nat.id by lia. rewrite Z.add_0_l. rewrite (ok_hp P p OK), (ok_n P p OK). rewrite <- layer_eq, <- wots_bytes_eq.
      rewrite firstn_firstn. replace (Nat.min (sp_wots_bytes P) (sp_layer_bytes P)) with (sp_wots_bytes P) by (rewrite wots_bytes_eq; lia).
      rewrite skipn_firstn_comm. rewrite LL at 1. rewrite wots_bytes_eq. replace (wlen p * n + sp_th P * n - wlen p * n)%nat with (sp_th P * n)%nat by lia.
      rewrite <- wots_bytes_eq. fold au.
      assert (EL : lf = wots_pkFromSig p pub (firstn (sp_wots_bytes P) sig) root (setTKP (mkADRS i tree 0 0 0 0) WOTS_HASH leaf)).
      { unfold lf, wots_pkFromSig. rewrite (ok_n P p OK). reflexivity. }
      rewrite <- EL. reflexivity. }
    rewrite EX.
    assert (NX : node n (xmss_pkFromSig p pub leaf (firstn (xmss_bytes p) sig) root (ht_adrs (Z.to_nat i) tree))).
    { rewrite <- EX. apply climb_node; auto. apply blocks_node; auto. lia. }
    rewrite <- layer_eq. rewrite <- layer_eq in NX.
    destruct todo as [|todo].
    - cbn [verify_layers ht_root_from]. auto.
    - cbn [Nat.sub] in *. destruct (tree_step (S todo) tree) as (T1 & T2 & T3 & T4); auto; try lia.
      rewrite T3, T2. rewrite (ok_hp P p OK) in T2, T4 |- *. replace (Z.to_nat i + 1)%nat with (Z.to_nat (i + 1)) by lia.
      apply IHtodo; auto; try lia.
      + apply bytes_skipn; auto.
      + rewrite skipn_length. lia.
      + wfa.
      + wfa.
      + rewrite <- T2. replace (todo - 0)%nat with todo by lia. replace (S todo - 1)%nat with todo in T1 by lia. exact T1.
  Qed.
End Top.

(** ** the digest and its parts *)
Lemma ull_toInt : forall l, bytes l -> bytes_to_ull l = toInt l.
Proof.
  induction l as [|b r IH]; intros B; [reflexivity|]. inversion B as [|? ? Hb B']; subst. cbn [bytes_to_ull]. rewrite IH by auto. rewrite toInt_cons. pose proof (toInt_bound r B') as R.
  rewrite Z.shiftl_mul_pow2 by lia. rewrite pow256 in R |- *. replace (8 * Z.of_nat (length r)) with (Z.of_nat (8 * length r)) by lia. apply lor_mul_pow2; lia.
Qed.
Lemma shr_ones : forall w k, 0 <= k <= w -> Z.shiftr (2 ^ w - 1) (w - k) = Z.ones k.
Proof.
  intros w k H. rewrite Z.sub_1_r, <- Z.ones_equiv. apply Z.bits_inj'. intros i Hi. rewrite Z.shiftr_spec by lia.
  destruct (Z.lt_ge_cases i k).
  - rewrite !Z.ones_spec_low by lia. reflexivity.
  - rewrite !Z.ones_spec_high by lia. reflexivity.
Qed.

Section Ctx.
  Variable P : sparam.
  Variable p : slhp.
  Hypothesis OK : sp_ok P p.
  Local Notation n := (sp_n P).
  Let Hn := ok_n P p OK.
  Let Hn32 := ok_n32 P p OK.
  (** what the library hashes as the message *)
  Definition sep (c : spctx) (m : list Z) : Z * list Z := signature_domain_separation (sc_internal c) (sc_prehash c) (sc_userctx c) m (sp_cat P) false.

  Lemma hp_eq : (f_h p / f_d p = sp_th P)%nat.
  Proof. rewrite (ok_hd P p OK), Nat.mul_comm, Nat.div_mul. apply (ok_hp P p OK). rewrite (ok_d P p OK). pose proof (ok_d22 P p OK). lia. Qed.
  Lemma tb_eq : (f_h p - f_h p / f_d p = tree_bits P)%nat.
  Proof. rewrite hp_eq. unfold tree_bits. pose proof (ok_hd P p OK) as H. rewrite (ok_hp P p OK), (ok_d P p OK) in H. rewrite H. pose proof (ok_d22 P p OK). nia. Qed.
  Lemma md_eq : md_bytes p = sp_fors_msg P.
  Proof. unfold md_bytes, sp_fors_msg. rewrite (ok_a P p OK), (ok_k P p OK). f_equal. lia. Qed.
  Lemma treeb_eq : tree_bytes p = ((tree_bits P + 7) / 8)%nat.
  Proof. unfold tree_bytes. rewrite tb_eq. reflexivity. Qed.
  Lemma leafb_eq : leaf_bytes p = ((sp_th P + 7) / 8)%nat.
  Proof. unfold leaf_bytes. rewrite (ok_h P p OK), (ok_d P p OK). apply (ok_lb P p OK). Qed.
  Lemma m_eq : f_m p = (md_bytes p + tree_bytes p + leaf_bytes p)%nat.
  Proof. rewrite md_eq, treeb_eq, leafb_eq. apply (ok_m P p OK). Qed.
  Lemma tree_range : forall dg, 0 <= dg_tree p dg < 2 ^ Z.of_nat (sp_th P * (sp_d P - 1)).
  Proof. intros. unfold dg_tree. rewrite tb_eq. apply Z.mod_pos_bound. apply pow2pos. Qed.
  Lemma leaf_range : forall dg, 0 <= dg_leaf p dg < 2 ^ Z.of_nat (sp_th P).
  Proof. intros. unfold dg_leaf. rewrite hp_eq. apply Z.mod_pos_bound. apply pow2pos. Qed.
  Lemma tree_range64 : forall dg, 0 <= dg_tree p dg < 2 ^ 64.
  Proof. intros. pose proof (tree_range dg) as R. split; [lia|]. eapply Z.lt_le_trans; [apply R|]. apply Z.pow_le_mono_r; [lia|]. pose proof (ok_tb P p OK). lia. Qed.
  Lemma leaf_range32 : forall dg, 0 <= dg_leaf p dg < 2 ^ 32.
  Proof. intros. pose proof (leaf_range dg) as R. split; [lia|]. eapply Z.lt_le_trans; [apply R|]. apply Z.pow_le_mono_r; [lia|]. pose proof (ok_th P p OK). lia. Qed.

  Lemma hash_message_ok : forall R pub root m c ret b, bytes R -> length R = n -> node n pub -> node n root -> bytes (sc_userctx c) -> bytes m ->
    Z.of_nat (length m) + 1000 < 2 ^ 64 -> sep c m = (ret, b) -> 0 <= ret ->
    hash_message P R (pub ++ root) m c = (ret, (dg_md p (H_msg p R pub root b), dg_tree p (H_msg p R pub root b), dg_leaf p (H_msg p R pub root b))) /\
    bytes (dg_md p (H_msg p R pub root b)) /\ length (dg_md p (H_msg p R pub root b)) = sp_fors_msg P.
  Proof.
    intros R pub root m c ret b BR LR [Bp Lp] [Br Lr] Bu Bm Lm E Hret. unfold hash_message. fold (sep c m). rewrite E. destruct (Z.ltb_spec ret 0); [lia|]. cbv zeta.
    destruct (domsep_facts _ _ _ _ _ _ _ _ Bu Bm E Hret) as [Bb Lb].
    pose proof (ok_d22 P p OK) as D. pose proof (ok_th P p OK) as TH. pose proof (ok_tb P p OK) as TB. destruct (Nat.eqb_spec (sp_d P) 1); [lia|].
    rewrite shake256_of_ok.
    2:{ repeat (apply Forall_cons; [auto using bytes_app|]). constructor. }
    2:{ cbn [concat]. rewrite !app_length. cbn [length]. lia. }
    cbn [concat]. rewrite app_nil_r, <- app_assoc. rewrite <- (ok_m P p OK). fold (H_msg p R pub root b). set (dg := H_msg p R pub root b).
    assert (Bd : bytes dg) by (apply SHAKE256_bytes; auto using bytes_app). assert (Ld : length dg = f_m p) by apply SHAKE256_len.
    fold (tree_bits P) in TB. rewrite !shr_ones by lia. rewrite !Z.land_ones by lia. rewrite !ull_toInt by (apply bytes_slice; auto).
    split; [|split].
    - unfold dg_md, dg_tree, dg_leaf. rewrite tb_eq, hp_eq, md_eq, treeb_eq, leafb_eq. apply f_equal. apply f_equal2; [reflexivity|].
      unfold u32. change 4294967296 with (2 ^ 32). symmetry. apply Znumtheory.Zmod_div_mod; [apply pow2pos|lia|].
      exists (2 ^ (32 - Z.of_nat (sp_th P))). rewrite <- Z.pow_add_r by lia. f_equal. lia.
    - apply bytes_firstn; auto.
    - unfold dg_md. rewrite firstn_length, Ld, m_eq, md_eq. lia.
  Qed.

  Lemma sep_ret : forall c m, fst (sep c m) = 0 \/ fst (sep c m) < 0.
  Proof.
    intros. unfold sep, signature_domain_separation. destruct (sc_internal c); [left; reflexivity|]. destruct (255 <? length (sc_userctx c))%nat; [right; vm_compute; reflexivity|].
    destruct (signature_ph_oids _ _); [left; reflexivity|right; vm_compute; reflexivity].
  Qed.
  Lemma prf_msg_ok : forall prf rnd m c ret b, node n prf -> node n rnd -> bytes (sc_userctx c) -> bytes m -> Z.of_nat (length m) + 1000 < 2 ^ 64 -> sep c m = (ret, b) -> 0 <= ret ->
    gen_message_random P prf rnd m c = (ret, PRF_msg p prf rnd b) /\ bytes (PRF_msg p prf rnd b) /\ length (PRF_msg p prf rnd b) = n.
  Proof.
    intros prf rnd m c ret b [Bp Lp] [Br Lr] Bu Bm Lm E Hret. unfold gen_message_random. fold (sep c m). rewrite E. destruct (Z.ltb_spec ret 0); [lia|].
    destruct (domsep_facts _ _ _ _ _ _ _ _ Bu Bm E Hret) as [Bb Lb]. split; [|split].
    - rewrite shake256_of_ok. cbn [concat]. rewrite app_nil_r. unfold PRF_msg. rewrite Hn. reflexivity.
      repeat (apply Forall_cons; [auto|]). constructor. cbn [concat]. rewrite !app_length. cbn [length]. lia.
    - apply SHAKE256_bytes; auto using bytes_app.
    - unfold PRF_msg. rewrite SHAKE256_len. exact Hn.
  Qed.

  Lemma sig_eq : sp_sig P = sig_bytes p /\ sp_sig P = (n + sp_fors_bytes P + sp_d P * sp_layer_bytes P)%nat /\ sp_fors_bytes P = (f_k p * fors_piece p)%nat.
  Proof.
    assert (E3 : sp_fors_bytes P = (f_k p * fors_piece p)%nat) by (unfold sp_fors_bytes, fors_piece; rewrite (ok_k P p OK), (ok_a P p OK), (ok_n P p OK); ring).
    assert (E1 : sp_sig P = (n + sp_fors_bytes P + sp_d P * sp_layer_bytes P)%nat).
    { unfold sp_sig, sp_sight, sp_layer_bytes. pose proof (ok_hd P p OK) as H. rewrite (ok_h P p OK), (ok_d P p OK), (ok_hp P p OK) in H. rewrite H. ring. }
    split; [|auto]. rewrite E1, E3. rewrite (layer_eq P p OK). unfold sig_bytes, xmss_bytes, fors_piece. rewrite (ok_hd P p OK), (ok_n P p OK), (ok_d P p OK). ring.
  Qed.

  (** ** the signature is that of Algorithm 19 *)
  Theorem sign_ok : forall mem c m skseed skprf pub root rng b rnd, node n skseed -> node n skprf -> node n pub -> node n root -> bytes (sc_userctx c) -> bytes m ->
    Z.of_nat (length m) + 1000 < 2 ^ 64 -> sep c m = (0, b) -> (rng = None /\ rnd = pub \/ rng = Some (0, rnd)) -> node n rnd -> bytes mem -> length mem = sp_sig P ->
    sp_sign_ctx P mem c m (skseed ++ skprf ++ pub ++ root) rng = Some (0, slh_sign_internal p pub b skseed skprf root rnd).
  Proof.
    intros mem c m skseed skprf pub root rng b rnd Ns Nf Np Nr Bu Bm Lm E HR Nrnd Bmem Lmem. unfold sp_sign_ctx. cbv zeta.
    assert (E1 : firstn n (skseed ++ skprf ++ pub ++ root) = skseed) by (rewrite <- (proj2 Ns); apply firstn_length_app).
    assert (E2 : slice (skseed ++ skprf ++ pub ++ root) n n = skprf).
    { unfold slice. rewrite <- (proj2 Ns) at 2. rewrite skipn_length_app. rewrite <- (proj2 Nf). apply firstn_length_app. }
    assert (E3 : skipn (2 * n) (skseed ++ skprf ++ pub ++ root) = pub ++ root).
    { rewrite app_assoc. replace (2 * n)%nat with (length (skseed ++ skprf)). apply skipn_length_app. rewrite app_length, (proj2 Ns), (proj2 Nf). lia. }
    assert (E4 : firstn n (pub ++ root) = pub) by (rewrite <- (proj2 Np); apply firstn_length_app).
    rewrite E1, E2, E3, E4.
    assert (ER : match rng with Some r => r | None => (0, pub) end = (0, rnd)) by (destruct HR as [[-> ->]| ->]; reflexivity). rewrite ER. change (0 <? 0) with false. cbv iota.
    destruct (prf_msg_ok skprf rnd m c 0 b) as (G & BR & LR); auto; try lia. rewrite G. change (0 <? 0) with false. cbv iota.
    destruct (hash_message_ok (PRF_msg p skprf rnd b) pub root m c 0 b) as (HM & Bmd & Lmd); auto; try lia. rewrite HM. change (0 <? 0) with false. cbv iota.
    set (R := PRF_msg p skprf rnd b) in *. unfold slh_sign_internal. cbv zeta. fold R. set (dg := H_msg p R pub root b) in *.
    pose proof (tree_range dg) as TR. pose proof (leaf_range dg) as LeR. pose proof (tree_range64 dg) as TR6. pose proof (leaf_range32 dg) as LeR3.
    set (tree := dg_tree p dg) in *. set (leaf := dg_leaf p dg) in *. clearbody tree leaf.
    rewrite adr0_ok. rewrite !set_type_ok by wfa. cbn [A_layer A_tree A_type A_w1 A_w2 A_w3]. rewrite set_tree_ok by wfa. cbn [A_layer A_tree A_type A_w1 A_w2 A_w3].
    rewrite set_keypair_ok by wfa. cbn [A_layer A_tree A_type A_w1 A_w2 A_w3]. change AT_WOTS with 0. change AT_HASHTREE with TREE.
    destruct sig_eq as (_ & SE & FE).
    rewrite (fors_sign_ok P p OK); auto; [|apply bytes_slice; auto|apply length_slice; lia|wfa].
    pose proof (ok_d22 P p OK) as D. pose proof (ok_tb P p OK) as TB. pose proof (ok_th P p OK) as TH.
    assert (NF : node n (fors_pk p pub skseed (fors_adrs tree leaf))).
    { apply T_node with (P := P); auto. match goal with |- bytes (concat ?x) => assert (NR : Forall (node n) x); [|apply (nodes_concat n _ NR)] end.
      apply Forall_forall. intros y Hy. apply in_map_iff in Hy. destruct Hy as (j & <- & _). apply fors_node_node; auto. }
    rewrite (sign_layers_ok P p OK); auto; try lia.
    - change (Z.to_nat 0) with 0%nat. rewrite fors_correct. unfold ht_sign. rewrite (ok_d P p OK). reflexivity.
    - apply bytes_skipn; auto.
    - rewrite skipn_length. lia.
    - wfa.
    - wfa.
  Qed.
  Theorem sign_fail : forall mem c m sk rng, (exists r o, rng = Some (r, o) /\ r < 0) \/ fst (sep c m) < 0 -> exists r, r < 0 /\ sp_sign_ctx P mem c m sk rng = Some (r, zeros (sp_sig P)).
  Proof.
    intros mem c m sk rng H. unfold sp_sign_ctx. cbv zeta. destruct (match rng with Some r => r | None => _ end) as [r0 o] eqn:ER.
    destruct (Z.ltb_spec r0 0); [exists r0; auto|]. destruct H as [(r & o' & -> & Hr)|H]. { injection ER as -> ->. lia. }
    unfold gen_message_random. fold (sep c m). destruct (sep c m) as [r b]. cbn [fst] in H. destruct (Z.ltb_spec r 0); [|lia]. cbn beta iota. destruct (Z.ltb_spec r 0); [|lia]. exists r; auto.
  Qed.

  (** ** verification is Algorithm 20 *)
  Theorem verify_ok : forall ad1 ad2 sig c m pub root b, node n pub -> node n root -> bytes (sc_userctx c) -> bytes m ->
    Z.of_nat (length m) + 1000 < 2 ^ 64 -> sep c m = (0, b) -> bytes sig -> length sig = sp_sig P ->
    (sp_verify_ctx P ad1 ad2 sig c m (pub ++ root) = 0 <-> slh_verify_internal p pub b sig root) /\
    (sp_verify_ctx P ad1 ad2 sig c m (pub ++ root) = 0 \/ sp_verify_ctx P ad1 ad2 sig c m (pub ++ root) = - EBADMSG).
  Proof.
    intros ad1 ad2 sig c m pub root b Np Nr Bu Bm Lm E Bs Ls. unfold sp_verify_ctx. destruct sig_eq as (S0 & SE & FE).
    destruct (hash_message_ok (firstn n sig) pub root m c 0 b) as (HM & Bmd & Lmd); auto; try lia. { apply bytes_firstn; auto. } { rewrite firstn_length. lia. }
    rewrite HM. change (0 <? 0) with false. cbv iota. set (R := firstn n sig) in *. set (dg := H_msg p R pub root b) in *.
    pose proof (tree_range dg) as TR. pose proof (leaf_range dg) as LeR. pose proof (tree_range64 dg) as TR6. pose proof (leaf_range32 dg) as LeR3.
    unfold slh_verify_internal. cbv zeta. rewrite Hn. fold R. fold dg. set (tree := dg_tree p dg) in *. set (leaf := dg_leaf p dg) in *. clearbody tree leaf.
    assert (E4 : firstn n (pub ++ root) = pub) by (rewrite <- (proj2 Np); apply firstn_length_app).
    assert (E5 : skipn n (pub ++ root) = root) by (rewrite <- (proj2 Np); apply skipn_length_app). rewrite E5.
    unfold sp_root. cbv zeta. rewrite E4. rewrite adr0_ok. rewrite !set_type_ok by wfa. cbn [A_layer A_tree A_type A_w1 A_w2 A_w3]. rewrite set_tree_ok by wfa. cbn [A_layer A_tree A_type A_w1 A_w2 A_w3].
    rewrite set_keypair_ok by wfa. cbn [A_layer A_tree A_type A_w1 A_w2 A_w3]. change AT_WOTS with 0. change AT_HASHTREE with TREE. change AT_WOTSPK with WOTS_PK.
    pose proof (ok_d22 P p OK) as D. pose proof (ok_tb P p OK) as TB. pose proof (ok_th P p OK) as TH.
    assert (BF : bytes (slice sig n (sp_fors_bytes P))) by (apply bytes_slice; auto). assert (LF : length (slice sig n (sp_fors_bytes P)) = (f_k p * fors_piece p)%nat) by (rewrite length_slice; lia).
    rewrite (fors_pk_from_sig_ok P p OK); auto; [|wfa].
    rewrite <- FE. set (PF := fors_pkFromSig p pub (slice sig n (sp_fors_bytes P)) (dg_md p dg) (fors_adrs tree leaf)).
    assert (NF : node n PF) by (apply (fors_pk_node P p OK); auto).
    destruct (verify_layers_ok P p OK pub Np (sp_d P) 0 (skipn (n + sp_fors_bytes P) sig) PF 0 tree leaf 0 0 0 0 0 0 0 0 0 tree leaf) as [EV NV]; auto; try lia.
    { apply bytes_skipn; auto. } { rewrite skipn_length. lia. } { wfa. } { wfa. } { wfa. }
    rewrite EV. unfold ht_verify. rewrite (ok_d P p OK). change (Z.to_nat 0) with 0%nat in *.
    destruct (memcmp_spec ad1 (ht_root_from p pub (sp_d P) 0 PF (skipn (n + sp_fors_bytes P) sig) tree leaf) ad2 root) as [M1 M2]; [apply NV|apply Nr|].
    destruct (Z.eqb_spec (lc_memcmp_secure ad1 (ht_root_from p pub (sp_d P) 0 PF (skipn (n + sp_fors_bytes P) sig) tree leaf) ad2 root) 0) as [Z0|Z0].
    - split; [|auto]. split; [|reflexivity]. intros _. split; [lia|]. apply M1; auto.
    - split; [|auto]. split; [intros C; vm_compute in C; discriminate C|]. intros [_ V]. apply M1 in V. congruence.
  Qed.
  Theorem verify_fail : forall ad1 ad2 sig c m pk, fst (sep c m) < 0 -> sp_verify_ctx P ad1 ad2 sig c m pk = fst (sep c m).
  Proof.
    intros. unfold sp_verify_ctx, hash_message. fold (sep c m). destruct (sep c m) as [r b]. cbn [fst] in *. destruct (Z.ltb_spec r 0); [|lia]. cbn beta iota. destruct (Z.ltb_spec r 0); [|lia]. reflexivity.
  Qed.

  (** ** key generation is Algorithm 18 *)
  Theorem keypair_ok : forall skseed skprf pub pk0 sk0, node n skseed -> node n skprf -> node n pub -> bytes sk0 -> length sk0 = (4 * n)%nat ->
    sp_keypair P (0, skseed ++ skprf ++ pub) pk0 sk0 =
    Some (0, pub ++ slh_root p pub skseed, (skseed ++ skprf ++ pub) ++ slh_root p pub skseed).
  Proof.
    intros skseed skprf pub pk0 sk0 Ns Nf Np Bs Ls. unfold sp_keypair. change (0 <? 0) with false. cbv iota. unfold sp_keypair_internal. cbv zeta.
    assert (E1 : firstn n (skseed ++ skprf ++ pub) = skseed) by (rewrite <- (proj2 Ns); apply firstn_length_app).
    assert (E2 : slice (skseed ++ skprf ++ pub) (2 * n) n = pub).
    { unfold slice. rewrite app_assoc. replace (2 * n)%nat with (length (skseed ++ skprf)) by (rewrite app_length, (proj2 Ns), (proj2 Nf); lia). rewrite skipn_length_app. rewrite <- (proj2 Np). apply firstn_all. }
    rewrite E1, E2. rewrite (gen_root_ok P p OK); auto. split. apply bytes_skipn; auto. rewrite skipn_length. unfold sp_seed. lia.
  Qed.
End Ctx.
