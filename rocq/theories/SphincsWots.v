(** The WOTS+ functions of the library against FIPS 205. *)
From Verif Require Import Bytes Words ZUtil KeccakModel Sha3Model KeccakBytes Fips202 KyberModel KyberSample KyberKem DilithiumModel
  DilithiumSample DilithiumScheme DilithiumHint SphincsModel SlhSpec SlhCorrect SphincsAddr.

(** ** digits *)
Lemma toInt_app : forall l a, fold_left (fun t b => 256 * t + b) l a = a * 256 ^ Z.of_nat (length l) + toInt l.
Proof.
  unfold toInt. induction l; intros x; cbn [fold_left length]. change (256 ^ Z.of_nat 0) with 1. lia.
  rewrite IHl. rewrite (IHl (256 * 0 + a)). rewrite Nat2Z.inj_succ, Z.pow_succ_r by lia. ring.
Qed.
Lemma toInt_cons : forall b l, toInt (b :: l) = b * 256 ^ Z.of_nat (length l) + toInt l.
Proof. intros. unfold toInt at 1. cbn [fold_left]. rewrite toInt_app. f_equal. Qed.
Lemma toInt_bound : forall l, bytes l -> 0 <= toInt l < 256 ^ Z.of_nat (length l).
Proof.
  induction l; intros B. cbn. lia. inversion B as [|? ? Ha B']; subst. specialize (IHl B'). unfold byte in Ha. rewrite toInt_cons. cbn [length].
  rewrite Nat2Z.inj_succ, Z.pow_succ_r by lia. nia.
Qed.
Lemma pow256 : forall n, 256 ^ Z.of_nat n = 2 ^ Z.of_nat (8 * n).
Proof. intros. change 256 with (2 ^ 8). rewrite <- Z.pow_mul_r by lia. f_equal. lia. Qed.

(** one byte gives two digits *)
Lemma base_2b_cons : forall b X o, byte b -> bytes X -> (o <= 2 * length X)%nat ->
  base_2b (b :: X) 4 (S (S o)) = (b / 16) mod 16 :: b mod 16 :: base_2b X 4 o.
Proof.
  intros b X o Hb BX Ho. unfold base_2b. cbn [seq map]. pose proof (toInt_bound X BX) as R. rewrite !toInt_cons. cbn [length]. rewrite pow256 in *.
  change (2 ^ Z.of_nat 4) with 16. set (m := length X) in *. f_equal; [|f_equal].
  - replace (8 * S m - 4 * (0 + 1))%nat with (4 + 8 * m)%nat by lia. rewrite (Nat2Z.inj_add 4), Z.pow_add_r by lia. rewrite (Z.mul_comm (2 ^ Z.of_nat 4)).
    rewrite <- Z.div_div by lia. rewrite Z.div_add_l by lia. rewrite (Z.div_small (toInt X)) by lia. rewrite Z.add_0_r. reflexivity.
  - replace (8 * S m - 4 * (1 + 1))%nat with (8 * m)%nat by lia. rewrite Z.div_add_l by lia. rewrite (Z.div_small (toInt X)) by lia. rewrite Z.add_0_r. reflexivity.
  - rewrite <- !seq_shift, !map_map. apply map_ext_in. intros i Hi. apply in_seq in Hi. fold m.
    replace (8 * S m - 4 * (S (S i) + 1))%nat with (8 * m - 4 * (i + 1))%nat by lia. set (e := (8 * m - 4 * (i + 1))%nat).
    replace (8 * m)%nat with (4 + 4 * i + e)%nat by lia. rewrite !Nat2Z.inj_add, !Z.pow_add_r by lia.
    rewrite Z.mul_assoc. rewrite Z.div_add_l by (apply Z.pow_nonzero; lia). change (2 ^ Z.of_nat 4) with 16.
    replace (b * (16 * 2 ^ Z.of_nat (4 * i)) + toInt X / 2 ^ Z.of_nat e) with (toInt X / 2 ^ Z.of_nat e + (b * 2 ^ Z.of_nat (4 * i)) * 16) by ring.
    apply Z.mod_add. lia.
Qed.
Lemma base_w_cons : forall b X o t, byte b -> base_w (S (S o)) (b :: X) t 0 = (b / 16) mod 16 :: b mod 16 :: base_w o X b 0.
Proof.
  intros b X o t Hb. cbn [base_w Z.eqb hd tl]. change (8 - 4) with 4. cbn [Z.eqb]. change (4 - 4) with 0.
  change 15 with (Z.ones 4). rewrite !Z.land_ones by lia. rewrite Z.shiftr_div_pow2, Z.shiftr_0_r by lia. reflexivity.
Qed.
Lemma base_w_ok : forall X t, bytes X -> base_w (2 * length X) X t 0 = base_2b X 4 (2 * length X).
Proof.
  induction X; intros t B; [reflexivity|]. inversion B as [|? ? Ha B']; subst. cbn [length]. replace (2 * S (length X))%nat with (S (S (2 * length X))) by lia.
  rewrite base_w_cons, base_2b_cons by (auto; lia). rewrite IHX by auto. reflexivity.
Qed.
Lemma base_2b_1 : forall b, base_2b [b] 4 1 = [(b / 16) mod 16].
Proof. intros. unfold base_2b. cbn [seq map length]. rewrite toInt_cons. cbn [length toInt fold_left]. change (256 ^ Z.of_nat 0) with 1. rewrite Z.mul_1_r, Z.add_0_r. reflexivity. Qed.

Lemma fold_csum : forall l a, Forall (fun x => 0 <= x <= 15) l -> 0 <= a -> a + 15 * Z.of_nat (length l) < 2 ^ 32 ->
  fold_left (fun c x => u32 (c + u32 (15 - x))) l a = a + fold_right Z.add 0 (map (fun x => 15 - x) l).
Proof.
  induction l; intros s F Hs Hb; cbn [fold_left map fold_right]. lia. inversion F as [|? ? Ha F']; subst. cbn [length] in Hb.
  assert (E1 : u32 (15 - a) = 15 - a) by (apply Z.mod_small; lia). assert (E2 : u32 (s + (15 - a)) = s + (15 - a)) by (apply Z.mod_small; lia).
  rewrite E1, E2, IHl; auto; lia.
Qed.
Lemma csum_bound : forall l, Forall (fun x => 0 <= x <= 15) l -> 0 <= fold_right Z.add 0 (map (fun x => 15 - x) l) <= 15 * Z.of_nat (length l).
Proof. induction l; intros F; cbn [map fold_right length]. lia. inversion F as [|? ? Ha F']; subst. specialize (IHl F'). lia. Qed.

Section Wots.
  Variable P : sparam.
  Variable p : slhp.
  Hypothesis Hn : f_n p = sp_n P.
  Hypothesis Hn32 : (16 <= sp_n P <= 32)%nat.
  Local Notation n := (sp_n P).

  Lemma len2_ok : sp_len2 P = 3%nat.
  Proof. unfold sp_len2. destruct (Nat.leb_spec n 8); [lia|]. destruct (Nat.leb_spec n 136); [reflexivity|lia]. Qed.
  Lemma len1_ok : sp_len1 P = (2 * n)%nat.
  Proof. unfold sp_len1. replace (8 * n)%nat with (2 * n * 4)%nat by lia. apply Nat.div_mul. lia. Qed.
  Lemma len_ok : sp_len P = wlen p.
  Proof. unfold sp_len, wlen, len1, len2. rewrite len1_ok, len2_ok, Hn. reflexivity. Qed.
  Lemma wlen_small : (35 <= wlen p <= 67)%nat.
  Proof. unfold wlen, len1, len2. lia. Qed.

  Lemma digits_ok : forall M, node n M -> chain_lengths P M = wots_digits p M.
  Proof.
    intros M [B L]. unfold chain_lengths, wots_digits. rewrite len1_ok. unfold len1. rewrite Hn, <- L. rewrite base_w_ok by auto. apply f_equal.
    set (msg := base_2b M 4 (2 * length M)).
    assert (F : Forall (fun x => 0 <= x <= 15) msg).
    { apply Forall_forall. intros x Hx. apply (In_nth _ _ 0) in Hx. destruct Hx as (i & _ & <-). pose proof (base_2b_range M 4 (2 * length M) i) as R.
      change (2 ^ Z.of_nat 4) with 16 in R. fold msg in R. lia. }
    assert (Lm : length msg = (2 * n)%nat) by (unfold msg; rewrite base_2b_len, L; reflexivity).
    unfold wots_checksum. rewrite len2_ok. rewrite fold_csum; auto; [|lia|rewrite Lm; lia]. rewrite Z.add_0_l. pose proof (csum_bound msg F) as C. rewrite Lm in C.
    set (cs := fold_right Z.add 0 (map (fun x => 15 - x) msg)) in *. clearbody cs. clearbody msg.
    change ((8 - (3 * 4) mod 8) mod 8)%nat with 4%nat. change ((3 * 4 + 7) / 8)%nat with 2%nat. rewrite Z.shiftl_mul_pow2 by lia. change (Z.of_nat 4) with 4.
    assert (E : u32 (cs * 2 ^ 4) = cs * 2 ^ 4) by (apply Z.mod_small; lia). rewrite E. set (v := cs * 2 ^ 4) in *.
    assert (TB : ull_to_bytes 2 v = toByte v 2).
    { rewrite ull_be. unfold be_bytes, toByte. cbn [le_bytes rev app seq map Nat.sub Z.of_nat Pos.of_succ_nat Pos.succ]. change (256 ^ 0) with 1. rewrite Z.div_1_r. reflexivity. }
    rewrite TB. unfold toByte. cbn [seq map Nat.sub].
    assert (B1 : forall k, byte ((v / 256 ^ k) mod 256)) by (intros; apply Z.mod_pos_bound; lia).
    unfold len2. rewrite base_w_cons by apply B1. rewrite base_2b_cons; [|apply B1|repeat constructor; apply B1|cbn [length]; lia].
    rewrite base_2b_1. do 2 apply f_equal. cbn [base_w Z.eqb hd tl]. change (8 - 4) with 4. change 15 with (Z.ones 4). rewrite Z.land_ones by lia. rewrite Z.shiftr_div_pow2 by lia. reflexivity.
  Qed.

  Variables pub sk : list Z.
  Hypothesis Bpub : node n pub.
  Hypothesis Bsk : node n sk.
  Let T_node := T_node P p Hn pub Bpub.
  Let PRF_node := PRF_node P p Hn pub sk Bpub Bsk.

  Lemma chain_node : forall X i s A, node n X -> node n (chain p pub X i s A).
  Proof. intros X i s A HX. induction s; cbn [chain]; auto. apply T_node. apply IHs. Qed.
  Lemma chain_1 : forall A X i s, chain p pub (T_l p pub (setHash A i) X) (i + 1) s A = chain p pub X i (S s) A.
  Proof.
    intros. pose proof (chain_add p pub A X 1 s i) as E. cbn [chain Nat.add] in E. change (Z.of_nat 0) with 0 in E. rewrite Z.add_0_r in E. exact E.
  Qed.
  Lemma thash_node : forall A x, node n x -> thash P pub (adrs_bytes A) x = T_l p pub A x.
  Proof. intros A x [B L]. apply thash_ok; auto. lia. lia. Qed.

  (** ** [gen_chain] *)
  Lemma gen_chain_ok : forall s i X l t ty kp c h, wfB l t ty kp -> 0 <= c < 256 -> 0 <= h < 256 -> node n X -> 0 <= i -> i + Z.of_nat s <= 16 ->
    exists h', 0 <= h' < 256 /\
    gen_chain P pub s i X (adrs_bytes (mkADRS l t ty kp c h)) = (chain p pub X i s (mkADRS l t ty kp c 0), adrs_bytes (mkADRS l t ty kp c h')).
  Proof.
    induction s; intros i X l t ty kp c h W Hc Hh HX Hi Hs; cbn [gen_chain]. exists h. auto.
    destruct (Z.ltb_spec i 16); [|lia]. cbv zeta. rewrite set_hash_ok; [| |exact Hh|lia].
    2:{ apply wfB_A; auto; lia. }
    cbn [A_layer A_tree A_type A_w1 A_w2 A_w3]. rewrite thash_node by auto.
    destruct (IHs (i + 1) (T_l p pub (mkADRS l t ty kp c i) X) l t ty kp c i) as (h' & Hh' & E); auto; try lia. apply T_node, HX.
    exists h'. split; auto. rewrite E. apply f_equal2; auto. apply (chain_1 (mkADRS l t ty kp c 0)).
  Qed.

  (** ** [wots_pk_from_sig] *)
  Lemma slice_0 : forall (s : list Z) k, slice s 0 k = firstn k s.
  Proof. reflexivity. Qed.
  Lemma slice_shift : forall (s : list Z) j k, slice (skipn k s) (j * k) k = slice s (S j * k) k.
  Proof. intros. unfold slice. rewrite skipn_skipn'. f_equal. Qed.
  Lemma node_slice : forall s k i, bytes s -> (i < k)%nat -> length s = (k * n)%nat -> node n (slice s (i * n) n).
  Proof. intros s k i B H L. split. apply bytes_slice; auto. apply length_slice. nia. Qed.

  Lemma wots_pk_loop_ok : forall L i sig l t ty kp c h, wfB l t ty kp -> 0 <= c < 256 -> 0 <= h < 256 -> 0 <= i -> i + Z.of_nat (length L) <= 256 ->
    Forall (fun x => 0 <= x <= 15) L -> bytes sig -> length sig = (length L * n)%nat ->
    exists c' h', 0 <= c' < 256 /\ 0 <= h' < 256 /\
    wots_pk_loop P pub i L sig (adrs_bytes (mkADRS l t ty kp c h)) =
    (map (fun j => chain p pub (slice sig (j * n) n) (nth j L 0) (Z.to_nat (15 - nth j L 0)) (mkADRS l t ty kp (i + Z.of_nat j) 0)) (seq 0 (length L)),
     adrs_bytes (mkADRS l t ty kp c' h')).
  Proof.
    induction L as [|x L IH]; intros i sig l t ty kp c h W Hc Hh Hi Hb F B Ls; cbn [wots_pk_loop length seq map]. exists c, h. auto.
    inversion F as [|? ? Hx F']; subst. cbn [length] in Hb, Ls. rewrite set_chain_ok; [|apply wfB_A; auto; lia|lia]. cbn [A_layer A_tree A_type A_w1 A_w2 A_w3].
    destruct (gen_chain_ok (Z.to_nat (15 - x)) x (firstn n sig) l t ty kp i h) as (h1 & Hh1 & E1); auto; try lia.
    { split. apply bytes_firstn; auto. rewrite firstn_length. nia. }
    rewrite E1. destruct (IH (i + 1) (skipn n sig) l t ty kp i h1) as (c2 & h2 & Hc2 & Hh2 & E2); auto; try lia.
    { apply bytes_skipn; auto. } { rewrite skipn_length. nia. }
    rewrite E2. exists c2, h2. split; auto. split; auto. apply f_equal2; auto. apply f_equal2.
    - cbn [nth Nat.mul]. rewrite slice_0. replace (i + Z.of_nat 0) with i by lia. reflexivity.
    - rewrite <- seq_shift, map_map. apply map_ext. intros j. cbn [nth]. rewrite slice_shift. replace (i + Z.of_nat (S j)) with (i + 1 + Z.of_nat j) by lia. reflexivity.
  Qed.
  Lemma digits_forall : forall M, Forall (fun x => 0 <= x <= 15) (wots_digits p M).
  Proof. intros. apply Forall_forall. intros x Hx. apply (In_nth _ _ 0) in Hx. destruct Hx as (i & _ & <-). apply digits_range. Qed.
  (** WOTS public key from the signature, before the last hash *)
  Lemma wots_pk_ok : forall sig M l t ty kp c h, wfB l t ty kp -> 0 <= c < 256 -> 0 <= h < 256 -> node n M -> bytes sig -> length sig = (wlen p * n)%nat ->
    exists c' h', 0 <= c' < 256 /\ 0 <= h' < 256 /\
    wots_pk_from_sig P pub sig M (adrs_bytes (mkADRS l t ty kp c h)) =
    (concat (map (fun j => chain p pub (slice sig (j * n) n) (nth j (wots_digits p M) 0) (Z.to_nat (15 - nth j (wots_digits p M) 0)) (mkADRS l t ty kp (Z.of_nat j) 0)) (seq 0 (wlen p))),
     adrs_bytes (mkADRS l t ty kp c' h')).
  Proof.
    intros sig M l t ty kp c h W Hc Hh HM B L. pose proof wlen_small as WL. unfold wots_pk_from_sig. rewrite digits_ok by auto.
    destruct (wots_pk_loop_ok (wots_digits p M) 0 sig l t ty kp c h) as (c' & h' & H1 & H2 & E); auto; try lia.
    rewrite digits_len; lia. apply digits_forall. rewrite digits_len; auto.
    exists c', h'. split; auto. split; auto. rewrite E, digits_len. reflexivity.
  Qed.

  (** ** leaf generation *)
  Lemma leaf_chain_ok : forall todo k X wk sg l t kp c h, wfB l t 0 kp -> 0 <= c < 256 -> 0 <= h < 256 -> node n X -> node n sg ->
    (k + todo = 15)%nat -> 0 <= wk ->
    exists h', 0 <= h' < 256 /\
    wots_leaf_chain P pub todo (Z.of_nat k) wk (chain p pub X 0 k (mkADRS l t 0 kp c 0)) sg (adrs_bytes (mkADRS l t 0 kp c h)) =
    (chain p pub X 0 15 (mkADRS l t 0 kp c 0),
     if (Z.of_nat k <=? wk) && (wk <=? 15) then chain p pub X 0 (Z.to_nat wk) (mkADRS l t 0 kp c 0) else sg,
     adrs_bytes (mkADRS l t 0 kp c h')).
  Proof.
    induction todo; intros k X wk sg l t kp c h W Hc Hh HX Hs Hk Hw; cbn [wots_leaf_chain]; cbv zeta.
    - assert (k = 15%nat) by lia. subst k. exists h. split; auto. rewrite cmov_ok; try apply (chain_node X 0 15 _ HX); try apply Hs.
      2:{ rewrite (proj2 Hs). symmetry. apply chain_node; auto. }
      2:{ destruct (_ =? _); auto. }
      destruct (Z.eqb_spec (Z.of_nat 15) wk) as [E|E].
      + destruct (Z.leb_spec (Z.of_nat 15) wk); [|lia]. destruct (Z.leb_spec wk 15); [|lia]. subst wk. cbn [andb Z.eqb Pos.eqb]. reflexivity.
      + replace ((Z.of_nat 15 <=? wk) && (wk <=? 15)) with false. reflexivity. symmetry. apply andb_false_iff. rewrite !Z.leb_gt. lia.
    - rewrite set_hash_ok; [|apply wfB_A; auto; lia|exact Hh|lia]. cbn [A_layer A_tree A_type A_w1 A_w2 A_w3]. rewrite thash_node by (apply chain_node; auto).
      replace (Z.of_nat k + 1) with (Z.of_nat (S k)) by lia.
      assert (EC : T_l p pub (mkADRS l t 0 kp c (Z.of_nat k)) (chain p pub X 0 k (mkADRS l t 0 kp c 0)) = chain p pub X 0 (S k) (mkADRS l t 0 kp c 0)) by reflexivity.
      rewrite EC. rewrite cmov_ok; try apply (chain_node X 0 k _ HX); try apply Hs.
      2:{ rewrite (proj2 Hs). symmetry. apply chain_node; auto. }
      2:{ destruct (_ =? _); auto. }
      destruct (IHtodo (S k) X wk (if (if Z.of_nat k =? wk then 1 else 0) =? 1 then chain p pub X 0 k (mkADRS l t 0 kp c 0) else sg) l t kp c (Z.of_nat k)) as (h' & Hh' & E); auto; try lia.
      { destruct (Z.of_nat k =? wk); cbn [Z.eqb Pos.eqb]; auto. apply chain_node; auto. }
      exists h'. split; auto. rewrite E. apply f_equal2; auto. apply f_equal2; auto.
      destruct (Z.eqb_spec (Z.of_nat k) wk) as [Ek|Ek]; cbn [Z.eqb Pos.eqb].
      + subst wk. destruct (Z.leb_spec (Z.of_nat (S k)) (Z.of_nat k)); [lia|]. destruct (Z.leb_spec (Z.of_nat k) (Z.of_nat k)); [|lia].
        destruct (Z.leb_spec (Z.of_nat k) 15); [|lia]. cbn [andb]. rewrite Nat2Z.id. reflexivity.
      + replace (Z.of_nat (S k) <=? wk) with (Z.of_nat k <=? wk). reflexivity.
        destruct (Z.leb_spec (Z.of_nat k) wk); destruct (Z.leb_spec (Z.of_nat (S k)) wk); auto; lia.
  Qed.

  Definition skA (l t kp : Z) (i : Z) : ADRS := mkADRS l t WOTS_PRF kp i 0.
  Definition chA (l t kp : Z) (i : Z) : ADRS := mkADRS l t WOTS_HASH kp i 0.
  Lemma leaf_loop_ok : forall steps sigs i mask l t kp c h, wfB l t 0 kp -> 0 <= c < 256 -> 0 <= h < 256 -> 0 <= i -> i + Z.of_nat (length steps) <= 256 ->
    Forall (fun x => 0 <= x <= 15) steps -> Forall (node n) sigs -> length sigs = length steps ->
    exists c' h', 0 <= c' < 256 /\ 0 <= h' < 256 /\
    wots_leaf_loop P pub sk i mask steps sigs (adrs_bytes (mkADRS l t 0 kp c h)) =
    (map (fun j => chain p pub (SlhSpec.PRF p pub sk (skA l t kp (i + Z.of_nat j))) 0 15 (chA l t kp (i + Z.of_nat j))) (seq 0 (length steps)),
     (if mask then sigs else
      map (fun j => chain p pub (SlhSpec.PRF p pub sk (skA l t kp (i + Z.of_nat j))) 0 (Z.to_nat (nth j steps 0)) (chA l t kp (i + Z.of_nat j))) (seq 0 (length steps))),
     adrs_bytes (mkADRS l t 0 kp c' h')).
  Proof.
    induction steps as [|s steps IH]; intros sigs i mask l t kp c h W Hc Hh Hi Hb F G Ls.
    - destruct sigs; [|discriminate]. cbn [wots_leaf_loop length seq map]. exists c, h. destruct mask; auto.
    - destruct sigs as [|g sigs]; [discriminate|]. cbn [length] in Hb, Ls. inversion F as [|? ? Hs F']; subst. inversion G as [|? ? Hg G']; subst. cbn [wots_leaf_loop]. cbv zeta.
      assert (W5 : wfB l t 5 kp) by (unfold wfB in *; lia).
      rewrite set_chain_ok; [|apply wfB_A; auto; lia|lia]. cbn [A_layer A_tree A_type A_w1 A_w2 A_w3].
      rewrite set_hash_ok; [|apply wfB_A; auto; lia|exact Hh|lia]. cbn [A_layer A_tree A_type A_w1 A_w2 A_w3].
      rewrite set_type_ok; [|apply wfB_A; auto; lia|unfold AT_WOTSPRF; lia]. cbn [A_layer A_tree A_type A_w1 A_w2 A_w3]. unfold AT_WOTSPRF.
      rewrite (set_type_ok (mkADRS l t 5 kp i 0)); [|apply wfB_A; auto; lia|unfold AT_WOTS; lia]. cbn [A_layer A_tree A_type A_w1 A_w2 A_w3]. unfold AT_WOTS.
      rewrite (prf_ok P p Hn) by (auto; lia).
      destruct (leaf_chain_ok 15 0 (SlhSpec.PRF p pub sk (mkADRS l t 5 kp i 0)) (if mask then 0xffffffff else s) g l t kp i 0) as (h1 & Hh1 & E1); auto; try lia.
      { destruct mask; lia. }
      cbn [chain] in E1. change (Z.of_nat 0) with 0 in E1. rewrite E1.
      destruct (IH sigs (i + 1) mask l t kp i h1) as (c2 & h2 & Hc2 & Hh2 & E2); auto; try lia.
      rewrite E2. exists c2, h2. split; auto. split; auto. apply f_equal2; [apply f_equal2|auto].
      + cbn [length seq map]. apply f_equal2. replace (i + Z.of_nat 0) with i by lia. reflexivity.
        rewrite <- seq_shift, map_map. apply map_ext. intros j. replace (i + Z.of_nat (S j)) with (i + 1 + Z.of_nat j) by lia. reflexivity.
      + destruct mask. reflexivity. cbn [length seq map nth].
        destruct (Z.leb_spec 0 s); [|lia]. destruct (Z.leb_spec s 15); [|lia]. cbn [andb]. apply f_equal2. replace (i + Z.of_nat 0) with i by lia. reflexivity.
        rewrite <- seq_shift, map_map. apply map_ext. intros j. replace (i + Z.of_nat (S j)) with (i + 1 + Z.of_nat j) by lia. reflexivity.
  Qed.

  (** pieces of the WOTS signature of [M] with key pair [kp] *)
  Definition wots_parts (M : list Z) (l t kp : Z) : list (list Z) :=
    map (fun j => chain p pub (SlhSpec.PRF p pub sk (skA l t kp (Z.of_nat j))) 0 (Z.to_nat (nth j (wots_digits p M) 0)) (chA l t kp (Z.of_nat j))) (seq 0 (wlen p)).
  Lemma wots_parts_sign : forall M l t ty kp a b, concat (wots_parts M l t kp) = wots_sign p pub M sk (setTKP (mkADRS l t ty kp a b) WOTS_HASH kp).
  Proof. reflexivity. Qed.

  Definition LIok (l t : Z) (i : leafinfo) : Prop :=
    (exists kp c h, 0 <= kp < 2 ^ 32 /\ 0 <= c < 256 /\ 0 <= h < 256 /\ li_leaf i = adrs_bytes (mkADRS l t 0 kp c h)) /\
    (exists kp, 0 <= kp < 2 ^ 32 /\ li_pk i = adrs_bytes (mkADRS l t WOTS_PK kp 0 0)) /\
    Forall (node n) (li_sig i) /\ length (li_sig i) = wlen p.
  Lemma gen_leaf_ok : forall M sl idx i l t, node n M -> 0 <= l < 256 -> 0 <= t < 2 ^ 64 -> 0 <= idx < 2 ^ 32 -> LIok l t i ->
    exists i', wots_gen_leafx1 P pub sk (chain_lengths P M) sl idx i = (wots_pkGen p pub sk (setTKP (mkADRS l t 0 0 0 0) WOTS_HASH idx), i') /\
      LIok l t i' /\ li_sig i' = if idx =? sl then wots_parts M l t idx else li_sig i.
  Proof.
    intros M sl idx i l t HM Hl Ht Hx [(kp & c & h & Hkp & Hc & Hh & EL) [(kp' & Hkp' & EP) [F L]]]. unfold wots_gen_leafx1. cbv zeta. rewrite EL, EP.
    rewrite set_keypair_ok by (apply wfB_A; unfold wfB; lia). rewrite set_keypair_ok by (apply wfB_A; unfold wfB, WOTS_PK; lia).
    cbn [A_layer A_tree A_type A_w1 A_w2 A_w3]. rewrite digits_ok by auto. pose proof wlen_small as WL.
    destruct (leaf_loop_ok (wots_digits p M) (li_sig i) 0 (negb (idx =? sl)) l t idx c h) as (c' & h' & Hc' & Hh' & E); auto; try lia.
    { unfold wfB; lia. } { rewrite digits_len; lia. } { apply digits_forall. } { rewrite L, digits_len. reflexivity. }
    rewrite E, digits_len.
    assert (NC : Forall (node n) (map (fun j => chain p pub (SlhSpec.PRF p pub sk (skA l t idx (0 + Z.of_nat j))) 0 15 (chA l t idx (0 + Z.of_nat j))) (seq 0 (wlen p)))).
    { apply Forall_forall. intros x Hxx. apply in_map_iff in Hxx. destruct Hxx as (j & <- & _). apply chain_node, PRF_node. }
    destruct (nodes_concat n _ NC) as [NB NL]. rewrite map_length, seq_length in NL.
    eexists. split; [|split].
    - apply f_equal2; [|reflexivity]. rewrite (thash_ok P p Hn) by (auto; lia || nia). reflexivity.
    - unfold LIok. cbn [li_leaf li_pk li_sig]. split; [exists idx, c', h'; auto|]. split; [exists idx; auto|].
      destruct (idx =? sl); cbn [negb]; [|auto]. split.
      + apply Forall_forall. intros x Hxx. apply in_map_iff in Hxx. destruct Hxx as (j & <- & _). apply chain_node, PRF_node.
      + rewrite map_length, seq_length. reflexivity.
    - cbn [li_sig]. destruct (idx =? sl); reflexivity.
  Qed.
End Wots.
