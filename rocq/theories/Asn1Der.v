(** * The decoder on DER encodings *)
From Coq Require Import ZArith List Lia Bool.
From Verif Require Import ZUtil Asn1Model Asn1Proof Asn1DerSpec.
Import ListNotations.
Open Scope Z_scope.

Lemma rd_at : forall pre x post,
  rd (pre ++ x :: post) (Z.of_nat (length pre)) = Go x.
Proof.
  intros pre x post. rewrite rd_ok.
  - rewrite Nat2Z.id, app_nth2 by lia. rewrite Nat.sub_diag. reflexivity.
  - rewrite app_length. cbn [length]. lia.
Qed.

Lemma rd_at' : forall l pre x post i,
  l = pre ++ x :: post -> i = Z.of_nat (length pre) -> rd l i = Go x.
Proof. intros l pre x post i -> ->. apply rd_at. Qed.

Lemma lor_byte : forall x b, 0 <= x < 2 ^ 56 -> 0 <= b < 256 ->
  Z.lor ((x * 256) mod W64) b = x * 256 + b.
Proof.
  intros x b Hx Hb. rewrite Z.mod_small.
  - exact (lor_mul_pow2 x b 8 ltac:(lia) Hb).
  - rewrite W64_val. change (2 ^ 56) with 72057594037927936 in Hx. lia.
Qed.

Definition hl (v : list Z) : Z := 1 + Z.of_nat (length (der_len (Z.of_nat (length v)))).

Lemma hl_range : forall v, 2 <= hl v <= 5.
Proof.
  intro v. unfold hl, der_len.
  destruct (_ <? 128); [cbn; lia|].
  destruct (_ <? 256); [cbn; lia|].
  destruct (_ <? 65536); cbn; lia.
Qed.

Lemma tlv_length : forall t v, Z.of_nat (length (tlv t v)) = hl v + Z.of_nat (length v).
Proof.
  intros t v. unfold tlv, hl. cbn [length]. rewrite app_length. lia.
Qed.

(** the length octets *)
Section Header.
Variable data pre v post : list Z.
Variable t : Z.
Hypothesis Hdata : data = pre ++ tlv t v ++ post.
Hypothesis Hmax : Z.of_nat (length data) <= 2 ^ 18.
Let dp := Z.of_nat (length pre).
Let lv := Z.of_nat (length v).

Lemma max' : dp + hl v + lv + Z.of_nat (length post) <= 262144.
Proof.
  pose proof Hmax as H. rewrite Hdata in H. rewrite !app_length in H.
  pose proof (tlv_length t v) as T. unfold dp, lv. change (2 ^ 18) with 262144 in H. lia.
Qed.

Lemma rd_tag : rd data dp = Go t.
Proof. rewrite Hdata. unfold tlv. apply rd_at. Qed.

Lemma header : forall datalen,
  dp + hl v + lv <= datalen -> datalen <= Z.of_nat (length data) ->
  exists len0, rd data (dp + 1) = Go len0 /\
  ((len0 >? 127) = false /\ len0 = lv /\ hl v = 2 \/
   (len0 >? 127) = true /\ (len0 =? 128) = false /\ (len0 - 128 >? 3) = false /\
   (len0 - 128 >? datalen - (dp + 2)) = false /\
   hl v = 2 + (len0 - 128) /\
   len_octets (Z.to_nat (len0 - 128)) data 0 (dp + 2) = Go (lv, dp + hl v)).
Proof.
  intros datalen H1 H2.
  pose proof max' as MX. fold lv dp in MX.
  assert (Lv : 0 <= lv) by (unfold lv; lia).
  unfold hl, der_len in *. fold lv in H1, MX |- *. rewrite Hdata. unfold tlv, der_len. fold lv.
  destruct (lv <? 128) eqn:E1.
  { apply Z.ltb_lt in E1. exists lv. split.
    - apply (rd_at' _ (pre ++ [t]) lv (v ++ post)).
      + cbn. rewrite <- app_assoc. reflexivity.
      + rewrite app_length. cbn [length]. unfold dp. lia.
    - left. split; [rewrite Z.gtb_ltb; apply Z.ltb_ge; lia|]. split; reflexivity. }
  apply Z.ltb_ge in E1.
  destruct (lv <? 256) eqn:E2.
  { apply Z.ltb_lt in E2. exists 129. cbn [length] in H1, MX. split.
    - apply (rd_at' _ (pre ++ [t]) 129 (lv :: v ++ post)).
      + cbn. rewrite <- app_assoc. reflexivity.
      + rewrite app_length. cbn [length]. unfold dp. lia.
    - right. split; [reflexivity|]. split; [reflexivity|]. split; [reflexivity|].
      split; [rewrite Z.gtb_ltb; apply Z.ltb_ge; lia|].
      split; [reflexivity|].
      change (Z.to_nat (129 - 128)) with 1%nat. cbn [len_octets].
      rewrite (rd_at' _ (pre ++ [t; 129]) lv (v ++ post)).
      + cbn [bind]. rewrite lor_byte by (change (2 ^ 56) with 72057594037927936; lia).
        rewrite uadd_le by (change (2 ^ 60) with 1152921504606846976; unfold dp in *; lia).
        apply f_equal. apply f_equal2; [lia|]. cbn [length]. lia.
      + cbn. rewrite <- app_assoc. reflexivity.
      + rewrite app_length. cbn [length]. unfold dp. lia. }
  apply Z.ltb_ge in E2.
  pose proof (Z.div_mod lv 256 ltac:(lia)) as DM.
  pose proof (Z.mod_pos_bound lv 256 ltac:(lia)) as DM1.
  destruct (lv <? 65536) eqn:E3.
  { apply Z.ltb_lt in E3. exists 130. cbn [length] in H1, MX. split.
    - apply (rd_at' _ (pre ++ [t]) 130 (lv / 256 :: lv mod 256 :: v ++ post)).
      + cbn. rewrite <- app_assoc. reflexivity.
      + rewrite app_length. cbn [length]. unfold dp. lia.
    - right. split; [reflexivity|]. split; [reflexivity|]. split; [reflexivity|].
      split; [rewrite Z.gtb_ltb; apply Z.ltb_ge; lia|].
      split; [reflexivity|].
      assert (D2 : 0 <= lv / 256 < 256) by (split; [lia|apply Z.div_lt_upper_bound; lia]).
      change (Z.to_nat (130 - 128)) with 2%nat. cbn [len_octets].
      rewrite (rd_at' _ (pre ++ [t; 130]) (lv / 256) (lv mod 256 :: v ++ post)).
      + cbn [bind]. rewrite !lor_byte by (change (2 ^ 56) with 72057594037927936; lia).
        rewrite !uadd_le by (change (2 ^ 60) with 1152921504606846976; unfold dp in *; lia).
        rewrite (rd_at' _ (pre ++ [t; 130; lv / 256]) (lv mod 256) (v ++ post)).
        * cbn [bind]. rewrite !lor_byte by (change (2 ^ 56) with 72057594037927936; lia).
          apply f_equal. apply f_equal2; [lia|]. cbn [length]. lia.
        * cbn. rewrite <- app_assoc. reflexivity.
        * rewrite app_length. cbn [length]. unfold dp. lia.
      + cbn. rewrite <- app_assoc. reflexivity.
      + rewrite app_length. cbn [length]. unfold dp. lia. }
  apply Z.ltb_ge in E3.
  pose proof (Z.div_mod (lv / 256) 256 ltac:(lia)) as DN.
  pose proof (Z.mod_pos_bound (lv / 256) 256 ltac:(lia)) as DN1.
  rewrite Z.div_div in DN by lia. change (256 * 256) with 65536 in DN.
  exists 131. cbn [length] in H1, MX. split.
  - apply (rd_at' _ (pre ++ [t]) 131 (lv / 65536 :: (lv / 256) mod 256 :: lv mod 256 :: v ++ post)).
    + cbn. rewrite <- app_assoc. reflexivity.
    + rewrite app_length. cbn [length]. unfold dp. lia.
  - right. split; [reflexivity|]. split; [reflexivity|]. split; [reflexivity|].
    split; [rewrite Z.gtb_ltb; apply Z.ltb_ge; lia|].
    split; [reflexivity|].
    assert (D2 : 0 <= lv / 65536 < 256) by (split; [lia|apply Z.div_lt_upper_bound; lia]).
    change (Z.to_nat (131 - 128)) with 3%nat. cbn [len_octets].
    rewrite (rd_at' _ (pre ++ [t; 131]) (lv / 65536) ((lv / 256) mod 256 :: lv mod 256 :: v ++ post)).
    + cbn [bind]. rewrite !lor_byte by (change (2 ^ 56) with 72057594037927936; lia).
      rewrite !uadd_le by (change (2 ^ 60) with 1152921504606846976; unfold dp in *; lia).
      rewrite (rd_at' _ (pre ++ [t; 131; lv / 65536]) ((lv / 256) mod 256) (lv mod 256 :: v ++ post)).
      * cbn [bind]. rewrite !lor_byte by (change (2 ^ 56) with 72057594037927936; lia).
        rewrite (rd_at' _ (pre ++ [t; 131; lv / 65536; (lv / 256) mod 256]) (lv mod 256) (v ++ post)).
        -- cbn [bind]. rewrite !lor_byte by (change (2 ^ 56) with 72057594037927936; lia).
           apply f_equal. apply f_equal2; [lia|]. cbn [length]. lia.
        -- cbn. rewrite <- app_assoc. reflexivity.
        -- rewrite app_length. cbn [length]. unfold dp. lia.
      * cbn. rewrite <- app_assoc. reflexivity.
      * rewrite app_length. cbn [length]. unfold dp. lia.
    + cbn. rewrite <- app_assoc. reflexivity.
    + rewrite app_length. cbn [length]. unfold dp. lia.
Qed.

(** the match of a DER element *)
Lemma match_der : forall machine op ol pc tdp len datalen flags tag hdr cs js,
  dp + hl v + lv <= datalen -> datalen <= Z.of_nat (length data) ->
  0 <= t < 256 -> Z.land t 31 <> 31 ->
  has op 8 = false -> has op 16 = false ->
  rd machine (pc + 1) = Go t ->
  do_match machine data op ol (mkst pc dp tdp len datalen flags tag hdr cs js) =
  if has t 32 then
    if 10 <=? Z.of_nat (length cs) then Fin EBADMSG
    else Go (inr (mkst pc (dp + hl v) (dp + hl v) lv (dp + hl v + lv)
                   (Z.lor (Z.land t F_CONS) F_MATCHED) t (hl v)
                   ((dp + hl v, datalen, hl v) :: cs) js))
  else Go (inr (mkst pc (dp + hl v) (dp + hl v) lv datalen
                   (Z.lor (Z.land t F_CONS) F_MATCHED) t (hl v) cs js)).
Proof.
  intros machine op ol pc tdp len datalen flags tag hdr cs js H1 H2 Ht H31 H8 H16 Hm.
  pose proof max' as MX. pose proof (hl_range v) as HL.
  assert (Lv : 0 <= lv) by (unfold lv; lia).
  assert (Dp : 0 <= dp) by (unfold dp; lia).
  assert (H2' : datalen <= 262144).
  { change (2 ^ 18) with 262144 in Hmax. lia. }
  unfold do_match. rewrite H16. cbn [andb orb].
  replace (dp =? datalen) with false by (symmetry; apply Z.eqb_neq; lia).
  rewrite andb_false_r.
  rewrite !(usub_le datalen dp) by (change (2 ^ 18) with 262144; lia).
  replace (datalen - dp <? 2) with false by (symmetry; apply Z.ltb_ge; lia).
  rewrite rd_tag. cbn [bind].
  replace (Z.land t 31 =? 31) with false by (symmetry; apply Z.eqb_neq; exact H31).
  rewrite H8, Hm. cbn [bind].
  rewrite Z.lxor_nilpotent, Z.land_0_l. cbn [Z.eqb negb bind].
  rewrite !(uadd_le dp 1) by (change (2 ^ 60) with 1152921504606846976; lia).
  rewrite !(uadd_le (dp + 1) 1) by (change (2 ^ 60) with 1152921504606846976; lia).
  replace (dp + 1 + 1) with (dp + 2) by lia.
  rewrite !(usub_le datalen (dp + 2)) by (change (2 ^ 18) with 262144; lia).
  destruct (header datalen H1 H2) as (len0 & R & [(A1 & A2 & A3)|(A1 & A2 & A3 & A4 & A5 & A6)]).
  - rewrite R. cbn [bind]. rewrite A1. subst len0. rewrite A3.
    replace (lv >? datalen - (dp + 2)) with false.
    2:{ symmetry. rewrite Z.gtb_ltb. apply Z.ltb_ge. lia. }
    cbn [bind]. rewrite fl_cons, fl_indef. cbn [negb].
    rewrite uadd_le by (change (2 ^ 60) with 1152921504606846976; lia).
    reflexivity.
  - rewrite R. cbn [bind]. rewrite A1, A2, A3, A4, A6. cbn [bind].
    rewrite (usub_le datalen (dp + hl v)) by (change (2 ^ 18) with 262144; lia).
    replace (lv >? datalen - (dp + hl v)) with false.
    2:{ symmetry. rewrite Z.gtb_ltb. apply Z.ltb_ge. lia. }
    cbn [bind]. rewrite fl_cons, fl_indef. cbn [negb].
    rewrite uadd_le by (change (2 ^ 60) with 1152921504606846976; lia).
    rewrite A5. reflexivity.
Qed.

End Header.

(** ** Whole trips on DER elements; the actions log what they are given *)
Definition entry : Type := Z * Z * list Z.
Definition logact (data : list Z) (i hdr tag off len : Z) (c : list entry)
  : Z * list entry :=
  (0, c ++ [(i, tag, firstn (Z.to_nat len) (skipn (Z.to_nat off) data))]).

Section Trips.
Variable machine data : list Z.
Variable nact : Z.
Hypothesis Hmax : Z.of_nat (length data) <= 2 ^ 18.
Let stp := step (list entry) (logact data) nact machine data.
Let fin := final (list entry) (logact data) nact machine data.

Lemma fin_S : forall n sc sc', stp sc = Go sc' -> fin (S n) sc = fin n sc'.
Proof. intros n sc sc' H. unfold fin. cbn [final]. fold stp. rewrite H. reflexivity. Qed.

Lemma fin_end : forall n sc r, stp sc = Fin r -> fin (S n) sc = Some (r, snd sc).
Proof. intros n sc r H. unfold fin. cbn [final]. fold stp. rewrite H. reflexivity. Qed.

Lemma slice_tlv : forall pre t v post,
  data = pre ++ tlv t v ++ post ->
  firstn (Z.to_nat (Z.of_nat (length v)))
    (skipn (Z.to_nat (Z.of_nat (length pre) + hl v)) data) = v.
Proof.
  intros pre t v post H. rewrite Nat2Z.id.
  pose proof (hl_range v).
  replace (Z.to_nat (Z.of_nat (length pre) + hl v))
    with (length (pre ++ t :: der_len (Z.of_nat (length v)))).
  2:{ rewrite app_length. unfold hl in *. cbn [length]. lia. }
  rewrite H. unfold tlv.
  replace (pre ++ (t :: der_len (Z.of_nat (length v)) ++ v) ++ post)
    with ((pre ++ t :: der_len (Z.of_nat (length v))) ++ v ++ post).
  2:{ rewrite <- app_assoc. cbn. rewrite <- app_assoc. reflexivity. }
  rewrite skipn_app, skipn_all, Nat.sub_diag. cbn.
  rewrite firstn_app, Nat.sub_diag, firstn_all. cbn. apply app_nil_r.
Qed.

(** MATCH_ACT of a primitive element *)
Lemma trip_leaf_op : forall op m1 i m2 pre t v post pc tdp len datalen flags tag hdr cs js c,
  machine = m1 ++ [op; t; i] ++ m2 -> op = 2 \/ op = 3 -> pc = Z.of_nat (length m1) ->
  data = pre ++ tlv t v ++ post ->
  Z.of_nat (length pre) + hl v + Z.of_nat (length v) <= datalen ->
  datalen <= Z.of_nat (length data) ->
  0 <= t < 256 -> Z.land t 31 <> 31 -> has t 32 = false -> 0 <= i < nact ->
  stp (mkst pc (Z.of_nat (length pre)) tdp len datalen flags tag hdr cs js, c) =
  Go (mkst (pc + 3) (Z.of_nat (length (pre ++ tlv t v)))
        (Z.of_nat (length pre) + hl v) (Z.of_nat (length v)) datalen
        F_MATCHED t (hl v) cs js,
      c ++ [(i, t, v)]).
Proof.
  intros op m1 i m2 pre t v post pc tdp len datalen flags tag hdr cs js c
    Hm Hop Hpc Hd H1 H2 Ht H31 H32 Hi.
  pose proof (hl_range v) as HL.
  assert (ML : machlen machine = pc + 3 + Z.of_nat (length m2)).
  { unfold machlen. rewrite Hm. rewrite !app_length. cbn [length]. lia. }
  assert (R0 : rd machine pc = Go op).
  { apply (rd_at' _ m1 op ([t; i] ++ m2)); [exact Hm|exact Hpc]. }
  assert (R1 : rd machine (pc + 1) = Go t).
  { apply (rd_at' _ (m1 ++ [op]) t ([i] ++ m2)).
    - rewrite Hm, <- app_assoc. reflexivity.
    - rewrite app_length. cbn [length]. lia. }
  assert (R2 : rd machine (pc + 2) = Go i).
  { apply (rd_at' _ (m1 ++ [op; t]) i m2).
    - rewrite Hm, <- app_assoc. reflexivity.
    - rewrite app_length. cbn [length]. lia. }
  assert (O1 : rd op_lengths op = Go 3) by (destruct Hop; subst op; reflexivity).
  assert (O2 : (op <=? 27) = true) by (destruct Hop; subst op; reflexivity).
  assert (O3 : leaf_op op = true) by (destruct Hop; subst op; reflexivity).
  assert (O4 : has op 2 = true) by (destruct Hop; subst op; reflexivity).
  assert (O5 : has op 8 = false) by (destruct Hop; subst op; reflexivity).
  assert (O6 : has op 16 = false) by (destruct Hop; subst op; reflexivity).
  unfold stp, step. cbn [s_pc].
  replace (machlen machine <=? pc) with false by (symmetry; apply Z.leb_gt; lia).
  rewrite R0. cbn [bind]. rewrite O1. cbn [bind].
  replace (machlen machine <? pc + 3) with false by (symmetry; apply Z.ltb_ge; lia).
  rewrite O2. cbv iota.
  rewrite (match_der data pre v post t Hd Hmax machine op 3 pc tdp len datalen flags
             tag hdr cs js H1 H2 Ht H31 O5 O6 R1).
  rewrite H32. cbn [bind].
  rewrite O3. cbv iota. unfold do_leaf.
  rewrite fl_cons, H32, fl_indef. cbn [negb andb bind].
  rewrite O4, O5. cbv iota.
  rewrite R2. cbn [bind]. unfold call.
  replace (0 <=? i) with true by (symmetry; apply Z.leb_le; lia).
  replace (i <? nact) with true by (symmetry; apply Z.ltb_lt; lia).
  replace (2 <=? hl v) with true by (symmetry; apply Z.leb_le; lia).
  replace (hl v <=? Z.of_nat (length pre) + hl v) with true by (symmetry; apply Z.leb_le; lia).
  replace (0 <=? Z.of_nat (length v)) with true by (symmetry; apply Z.leb_le; lia).
  replace (Z.of_nat (length pre) + hl v + Z.of_nat (length v) <=? Z.of_nat (length data))
    with true by (symmetry; apply Z.leb_le; lia).
  cbn [andb]. unfold logact.
  rewrite (slice_tlv pre t v post Hd).
  change (0 <? 0) with false. cbn [bind].
  rewrite uadd_le by (change (2 ^ 60) with 1152921504606846976;
                      change (2 ^ 18) with 262144 in Hmax; lia).
  replace (Z.of_nat (length (pre ++ tlv t v)))
    with (Z.of_nat (length pre) + hl v + Z.of_nat (length v)).
  2:{ rewrite app_length, Nat2Z.inj_add, tlv_length. lia. }
  replace (Z.lor (Z.land t F_CONS) F_MATCHED) with F_MATCHED.
  2:{ unfold has in H32. apply negb_false_iff, Z.eqb_eq in H32.
      unfold F_CONS. rewrite H32. reflexivity. }
  reflexivity.
Qed.

Lemma trip_leaf : forall m1 i m2 pre t v post pc tdp len datalen flags tag hdr cs js c,
  machine = m1 ++ [2; t; i] ++ m2 -> pc = Z.of_nat (length m1) ->
  data = pre ++ tlv t v ++ post ->
  Z.of_nat (length pre) + hl v + Z.of_nat (length v) <= datalen ->
  datalen <= Z.of_nat (length data) ->
  0 <= t < 256 -> Z.land t 31 <> 31 -> has t 32 = false -> 0 <= i < nact ->
  stp (mkst pc (Z.of_nat (length pre)) tdp len datalen flags tag hdr cs js, c) =
  Go (mkst (pc + 3) (Z.of_nat (length (pre ++ tlv t v)))
        (Z.of_nat (length pre) + hl v) (Z.of_nat (length v)) datalen
        F_MATCHED t (hl v) cs js,
      c ++ [(i, t, v)]).
Proof.
  intros m1 i m2 pre t v post pc tdp len datalen flags tag hdr cs js c Hm.
  intros. apply (trip_leaf_op 2 m1 i m2 pre t v post); auto.
Qed.

(** MATCH_ACT_OR_SKIP at the end of the sequence *)
Lemma trip_skip_end : forall m1 t i m2 pc dp tdp len flags tag hdr cs js c,
  machine = m1 ++ [3; t; i] ++ m2 -> pc = Z.of_nat (length m1) ->
  stp (mkst pc dp tdp len dp flags tag hdr cs js, c) =
  Go (mkst (pc + 3) dp tdp len dp (Z.land flags 251) tag hdr cs js, c).
Proof.
  intros m1 t i m2 pc dp tdp len flags tag hdr cs js c Hm Hpc.
  assert (ML : machlen machine = pc + 3 + Z.of_nat (length m2)).
  { unfold machlen. rewrite Hm. rewrite !app_length. cbn [length]. lia. }
  assert (R0 : rd machine pc = Go 3).
  { apply (rd_at' _ m1 3 ([t; i] ++ m2)); [exact Hm|exact Hpc]. }
  unfold stp, step. cbn [s_pc].
  replace (machlen machine <=? pc) with false by (symmetry; apply Z.leb_gt; lia).
  rewrite R0. cbn [bind]. change (rd op_lengths 3) with (@Go Z 3). cbn [bind].
  replace (machlen machine <? pc + 3) with false by (symmetry; apply Z.ltb_ge; lia).
  change (3 <=? 27) with true. cbv iota. unfold do_match.
  change (has 3 16) with false. change (has 3 1) with true. cbn [andb orb].
  rewrite Z.eqb_refl. cbn [bind]. reflexivity.
Qed.

(** MATCH_ACT_OR_SKIP on an element with another tag *)
Lemma trip_skip_other : forall m1 t i m2 pre t' v post pc tdp len datalen flags tag hdr cs js c,
  machine = m1 ++ [3; t; i] ++ m2 -> pc = Z.of_nat (length m1) ->
  data = pre ++ tlv t' v ++ post ->
  Z.of_nat (length pre) + hl v + Z.of_nat (length v) <= datalen ->
  datalen <= Z.of_nat (length data) ->
  Z.land t' 31 <> 31 -> has t 32 = false -> Z.land (Z.lxor t t') 255 <> 0 ->
  stp (mkst pc (Z.of_nat (length pre)) tdp len datalen flags tag hdr cs js, c) =
  Go (mkst (pc + 3) (Z.of_nat (length pre)) tdp len datalen 0 t' 2 cs js, c).
Proof.
  intros m1 t i m2 pre t' v post pc tdp len datalen flags tag hdr cs js c
    Hm Hpc Hd H1 H2 H31 H32 Hne.
  pose proof (hl_range v) as HL.
  assert (ML : machlen machine = pc + 3 + Z.of_nat (length m2)).
  { unfold machlen. rewrite Hm. rewrite !app_length. cbn [length]. lia. }
  assert (R0 : rd machine pc = Go 3).
  { apply (rd_at' _ m1 3 ([t; i] ++ m2)); [exact Hm|exact Hpc]. }
  assert (R1 : rd machine (pc + 1) = Go t).
  { apply (rd_at' _ (m1 ++ [3]) t ([i] ++ m2)).
    - rewrite Hm, <- app_assoc. reflexivity.
    - rewrite app_length. cbn [length]. lia. }
  assert (T : Z.land t 32 = 0).
  { unfold has in H32. apply negb_false_iff, Z.eqb_eq in H32. exact H32. }
  unfold stp, step. cbn [s_pc].
  replace (machlen machine <=? pc) with false by (symmetry; apply Z.leb_gt; lia).
  rewrite R0. cbn [bind]. change (rd op_lengths 3) with (@Go Z 3). cbn [bind].
  replace (machlen machine <? pc + 3) with false by (symmetry; apply Z.ltb_ge; lia).
  change (3 <=? 27) with true. cbv iota. unfold do_match.
  change (has 3 16) with false. change (has 3 1) with true. cbn [andb orb].
  replace (Z.of_nat (length pre) =? datalen) with false by (symmetry; apply Z.eqb_neq; lia).
  rewrite usub_le by (change (2 ^ 18) with 262144 in *; lia).
  replace (datalen - Z.of_nat (length pre) <? 2) with false by (symmetry; apply Z.ltb_ge; lia).
  rewrite (rd_tag data pre v post t' Hd). cbn [bind].
  replace (Z.land t' 31 =? 31) with false by (symmetry; apply Z.eqb_neq; exact H31).
  change (has 3 8) with false. cbv iota. rewrite R1. cbn [bind].
  unfold F_CONS. rewrite T. change (255 - 0) with 255.
  replace (Z.land (Z.lxor t t') 255 =? 0) with false by (symmetry; apply Z.eqb_neq; exact Hne).
  cbn [negb bind]. reflexivity.
Qed.

(** MATCH of a SEQUENCE *)
Lemma trip_seq : forall m1 m2 pre v post pc tdp len datalen flags tag hdr cs js c,
  machine = m1 ++ [0; 48] ++ m2 -> pc = Z.of_nat (length m1) ->
  data = pre ++ tlv 48 v ++ post ->
  Z.of_nat (length pre) + hl v + Z.of_nat (length v) <= datalen ->
  datalen <= Z.of_nat (length data) -> Z.of_nat (length cs) < 10 ->
  stp (mkst pc (Z.of_nat (length pre)) tdp len datalen flags tag hdr cs js, c) =
  Go (mkst (pc + 2) (Z.of_nat (length pre) + hl v)
        (Z.of_nat (length pre) + hl v) (Z.of_nat (length v))
        (Z.of_nat (length pre) + hl v + Z.of_nat (length v))
        (Z.lor (Z.land 48 F_CONS) F_MATCHED) 48 (hl v)
        ((Z.of_nat (length pre) + hl v, datalen, hl v) :: cs) js,
      c).
Proof.
  intros m1 m2 pre v post pc tdp len datalen flags tag hdr cs js c
    Hm Hpc Hd H1 H2 Hc.
  pose proof (hl_range v) as HL.
  assert (ML : machlen machine = pc + 2 + Z.of_nat (length m2)).
  { unfold machlen. rewrite Hm. rewrite !app_length. cbn [length]. lia. }
  assert (R0 : rd machine pc = Go 0).
  { apply (rd_at' _ m1 0 ([48] ++ m2)); [exact Hm|exact Hpc]. }
  assert (R1 : rd machine (pc + 1) = Go 48).
  { apply (rd_at' _ (m1 ++ [0]) 48 m2).
    - rewrite Hm, <- app_assoc. reflexivity.
    - rewrite app_length. cbn [length]. lia. }
  unfold stp, step. cbn [s_pc].
  replace (machlen machine <=? pc) with false by (symmetry; apply Z.leb_gt; lia).
  rewrite R0. cbn [bind]. change (rd op_lengths 0) with (@Go Z 2). cbn [bind].
  replace (machlen machine <? pc + 2) with false by (symmetry; apply Z.ltb_ge; lia).
  change (0 <=? 27) with true. cbv iota.
  rewrite (match_der data pre v post 48 Hd Hmax machine 0 2 pc tdp len datalen flags
             tag hdr cs js H1 H2); [|lia|discriminate|reflexivity|reflexivity|exact R1].
  change (has 48 32) with true. cbv iota.
  replace (10 <=? Z.of_nat (length cs)) with false by (symmetry; apply Z.leb_gt; lia).
  cbn [bind]. change (leaf_op 0) with true. cbv iota. unfold do_leaf.
  change (has (Z.lor (Z.land 48 F_CONS) F_MATCHED) F_CONS) with true.
  cbn [negb andb bind]. change (has 0 2) with false. cbn [bind]. reflexivity.
Qed.

(** END_SEQ at the end of a sequence of definite length *)
Lemma trip_end : forall m1 m2 pc dp tdp len flags tag hdr cdp cdl ch cs js c,
  machine = m1 ++ [32] ++ m2 -> pc = Z.of_nat (length m1) ->
  cdl <> 0 -> 0 <= cdp <= dp -> dp <= 2 ^ 18 ->
  stp (mkst pc dp tdp len dp flags tag hdr ((cdp, cdl, ch) :: cs) js, c) =
  Go (mkst (pc + 1) dp cdp (dp - cdp) cdl flags tag ch cs js, c).
Proof.
  intros m1 m2 pc dp tdp len flags tag hdr cdp cdl ch cs js c Hm Hpc Hn Hd Hx.
  assert (ML : machlen machine = pc + 1 + Z.of_nat (length m2)).
  { unfold machlen. rewrite Hm. rewrite !app_length. cbn [length]. lia. }
  assert (R0 : rd machine pc = Go 32).
  { apply (rd_at' _ m1 32 m2); [exact Hm|exact Hpc]. }
  unfold stp, step. cbn [s_pc].
  replace (machlen machine <=? pc) with false by (symmetry; apply Z.leb_gt; lia).
  rewrite R0. cbn [bind]. change (rd op_lengths 32) with (@Go Z 1). cbn [bind].
  replace (machlen machine <? pc + 1) with false by (symmetry; apply Z.ltb_ge; lia).
  change (32 <=? 27) with false. cbn [bind].
  change (leaf_op 32) with false. change (jump_op 32) with false.
  change (32 =? 28) with false. change (32 =? 29) with false.
  change (end_op 32) with true. cbv iota. unfold do_end.
  change ((32 =? 33) || (32 =? 37)) with false. cbn [andb].
  replace (cdl =? 0) with false by (symmetry; apply Z.eqb_neq; exact Hn).
  change (has 32 2) with false. rewrite andb_false_r.
  rewrite Z.eqb_refl. cbn [negb bind]. change (has 32 4) with false. cbn [bind].
  rewrite usub_le by lia. reflexivity.
Qed.

(** COMPLETE *)
Lemma trip_complete : forall m1 m2 pc dp tdp len dl flags tag hdr c,
  machine = m1 ++ [29] ++ m2 -> pc = Z.of_nat (length m1) ->
  stp (mkst pc dp tdp len dl flags tag hdr [] [], c) = Fin 0.
Proof.
  intros m1 m2 pc dp tdp len dl flags tag hdr c Hm Hpc.
  assert (ML : machlen machine = pc + 1 + Z.of_nat (length m2)).
  { unfold machlen. rewrite Hm. rewrite !app_length. cbn [length]. lia. }
  assert (R0 : rd machine pc = Go 29).
  { apply (rd_at' _ m1 29 m2); [exact Hm|exact Hpc]. }
  unfold stp, step. cbn [s_pc].
  replace (machlen machine <=? pc) with false by (symmetry; apply Z.leb_gt; lia).
  rewrite R0. cbn [bind]. change (rd op_lengths 29) with (@Go Z 1). cbn [bind].
  replace (machlen machine <? pc + 1) with false by (symmetry; apply Z.ltb_ge; lia).
  reflexivity.
Qed.

(** END_SEQ_OF: once more round, or out *)
Lemma trip_again : forall m1 tgt m2 pc dp tdp len dl flags tag hdr cdp cdl ch cs js c,
  machine = m1 ++ [34; tgt] ++ m2 -> pc = Z.of_nat (length m1) ->
  cdl <> 0 -> dp < dl ->
  stp (mkst pc dp tdp len dl flags tag hdr ((cdp, cdl, ch) :: cs) js, c) =
  Go (mkst tgt dp cdp dl dl flags tag ch ((cdp, cdl, ch) :: cs) js, c).
Proof.
  intros m1 tgt m2 pc dp tdp len dl flags tag hdr cdp cdl ch cs js c Hm Hpc Hn Hd.
  assert (ML : machlen machine = pc + 2 + Z.of_nat (length m2)).
  { unfold machlen. rewrite Hm. rewrite !app_length. cbn [length]. lia. }
  assert (R0 : rd machine pc = Go 34).
  { apply (rd_at' _ m1 34 ([tgt] ++ m2)); [exact Hm|exact Hpc]. }
  assert (R1 : rd machine (pc + 1) = Go tgt).
  { apply (rd_at' _ (m1 ++ [34]) tgt m2).
    - rewrite Hm, <- app_assoc. reflexivity.
    - rewrite app_length. cbn [length]. lia. }
  unfold stp, step. cbn [s_pc].
  replace (machlen machine <=? pc) with false by (symmetry; apply Z.leb_gt; lia).
  rewrite R0. cbn [bind]. change (rd op_lengths 34) with (@Go Z 2). cbn [bind].
  replace (machlen machine <? pc + 2) with false by (symmetry; apply Z.ltb_ge; lia).
  change (34 <=? 27) with false. cbn [bind].
  change (leaf_op 34) with false. change (jump_op 34) with false.
  change (34 =? 28) with false. change (34 =? 29) with false.
  change (end_op 34) with true. cbv iota. unfold do_end.
  change ((34 =? 33) || (34 =? 37)) with false. cbn [andb].
  replace (cdl =? 0) with false by (symmetry; apply Z.eqb_neq; exact Hn).
  replace (dp <? dl) with true by (symmetry; apply Z.ltb_lt; exact Hd).
  change (has 34 2) with true. cbn [andb]. rewrite R1. cbn [bind]. reflexivity.
Qed.

Lemma trip_out : forall m1 tgt m2 pc dp tdp len flags tag hdr cdp cdl ch cs js c,
  machine = m1 ++ [34; tgt] ++ m2 -> pc = Z.of_nat (length m1) ->
  cdl <> 0 -> 0 <= cdp <= dp -> dp <= 2 ^ 18 ->
  stp (mkst pc dp tdp len dp flags tag hdr ((cdp, cdl, ch) :: cs) js, c) =
  Go (mkst (pc + 2) dp cdp (dp - cdp) cdl flags tag ch cs js, c).
Proof.
  intros m1 tgt m2 pc dp tdp len flags tag hdr cdp cdl ch cs js c Hm Hpc Hn Hd Hx.
  assert (ML : machlen machine = pc + 2 + Z.of_nat (length m2)).
  { unfold machlen. rewrite Hm. rewrite !app_length. cbn [length]. lia. }
  assert (R0 : rd machine pc = Go 34).
  { apply (rd_at' _ m1 34 ([tgt] ++ m2)); [exact Hm|exact Hpc]. }
  unfold stp, step. cbn [s_pc].
  replace (machlen machine <=? pc) with false by (symmetry; apply Z.leb_gt; lia).
  rewrite R0. cbn [bind]. change (rd op_lengths 34) with (@Go Z 2). cbn [bind].
  replace (machlen machine <? pc + 2) with false by (symmetry; apply Z.ltb_ge; lia).
  change (34 <=? 27) with false. cbn [bind].
  change (leaf_op 34) with false. change (jump_op 34) with false.
  change (34 =? 28) with false. change (34 =? 29) with false.
  change (end_op 34) with true. cbv iota. unfold do_end.
  change ((34 =? 33) || (34 =? 37)) with false. cbn [andb].
  replace (cdl =? 0) with false by (symmetry; apply Z.eqb_neq; exact Hn).
  rewrite Z.ltb_irrefl. cbn [andb].
  rewrite Z.eqb_refl. cbn [negb bind]. change (has 34 4) with false. cbn [bind].
  rewrite usub_le by lia. reflexivity.
Qed.

End Trips.

(** ** Grammars of the shape SEQUENCE { field1, field2, ... } *)
Definition field : Type := Z * Z * list Z.     (* tag, action, contents *)
Definition fcode (f : field) : list Z := let '(t, i, _) := f in [2; t; i].
Definition fdata (f : field) : list Z := let '(t, _, v) := f in tlv t v.
Definition fentry (f : field) : entry := let '(t, i, v) := f in (i, t, v).
Definition fok (nact : Z) (f : field) : Prop :=
  let '(t, i, v) := f in 0 <= t < 256 /\ Z.land t 31 <> 31 /\ has t 32 = false /\
                         0 <= i < nact.

Section Record.
Variable machine data : list Z.
Variable nact : Z.
Hypothesis Hmax : Z.of_nat (length data) <= 2 ^ 18.
Let fin := final (list entry) (logact data) nact machine data.

Lemma rec_loop : forall fs mpre pre post n tdp len flags tag hdr cdp cdl ch c,
  Forall (fok nact) fs ->
  machine = mpre ++ flat_map fcode fs ++ [32; 29] ->
  data = pre ++ flat_map fdata fs ++ post ->
  cdl <> 0 -> 0 <= cdp <= Z.of_nat (length pre) ->
  fin (length fs + S (S n))%nat
    (mkst (Z.of_nat (length mpre)) (Z.of_nat (length pre)) tdp len
       (Z.of_nat (length (pre ++ flat_map fdata fs))) flags tag hdr
       [(cdp, cdl, ch)] [], c) = Some (0, c ++ map fentry fs).
Proof.
  induction fs as [|[[t i] v] fs IH];
    intros mpre pre post n tdp len flags tag hdr cdp cdl ch c HF Hm Hd Hn Hc.
  - cbn [flat_map length map app plus] in *. rewrite !app_nil_r.
    unfold fin.
    rewrite (fin_S machine data nact (S n) _ _
      (trip_end machine data nact mpre [29] _ _ _ _ _ _ _ _ _ _ _ _ _ Hm eq_refl Hn Hc
         ltac:(rewrite Hd, app_length in Hmax; lia))).
    rewrite (fin_end machine data nact n _ 0); [reflexivity|].
    apply (trip_complete machine data nact (mpre ++ [32]) []).
    + rewrite Hm, <- app_assoc. reflexivity.
    + rewrite app_length. cbn [length]. lia.
  - pose proof (Forall_inv HF) as F1. pose proof (Forall_inv_tail HF) as F2.
    destruct F1 as (A1 & A2 & A3 & A4).
    cbn [flat_map fcode fdata length map fentry plus] in *.
    unfold fin.
    rewrite (fin_S machine data nact _ _ _
      (trip_leaf machine data nact Hmax mpre i (flat_map fcode fs ++ [32; 29])
         pre t v (flat_map fdata fs ++ post) _ _ _
         (Z.of_nat (length (pre ++ tlv t v ++ flat_map fdata fs)))
         _ _ _ _ _ _
         ltac:(rewrite Hm, <- app_assoc; reflexivity) eq_refl
         ltac:(rewrite Hd, <- app_assoc; reflexivity)
         ltac:(rewrite !app_length, !Nat2Z.inj_add, tlv_length; lia)
         ltac:(rewrite Hd, !app_length; lia) A1 A2 A3 A4)).
    fold fin.
    replace (Z.of_nat (length mpre) + 3) with (Z.of_nat (length (mpre ++ [2; t; i]))).
    2:{ rewrite app_length. cbn [length]. lia. }
    rewrite app_assoc.
    rewrite (IH (mpre ++ [2; t; i]) (pre ++ tlv t v) post); try assumption.
    + rewrite <- app_assoc. reflexivity.
    + rewrite Hm, <- !app_assoc. reflexivity.
    + rewrite Hd, <- !app_assoc. reflexivity.
    + rewrite app_length. lia.
Qed.

Theorem record_ok : forall fs post n,
  Forall (fok nact) fs ->
  machine = [0; 48] ++ flat_map fcode fs ++ [32; 29] ->
  data = tlv 48 (flat_map fdata fs) ++ post ->
  fin (length fs + S (S (S n)))%nat (st0 (Z.of_nat (length data)), []) =
  Some (0, map fentry fs).
Proof.
  intros fs post n HF Hm Hd.
  set (v := flat_map fdata fs) in *.
  pose proof (hl_range v) as HL. pose proof (tlv_length 48 v) as TL.
  replace (length fs + S (S (S n)))%nat with (S (length fs + S (S n)))%nat by lia.
  assert (DL : Z.of_nat (length data) = hl v + Z.of_nat (length v) + Z.of_nat (length post)).
  { rewrite Hd, app_length. lia. }
  unfold fin, st0.
  rewrite (fin_S machine data nact _ _ _
    (trip_seq machine data nact Hmax [] (flat_map fcode fs ++ [32; 29]) [] v post
       0 0 0 (Z.of_nat (length data)) 0 0 0 [] [] [] Hm eq_refl Hd
       ltac:(cbn [length]; lia) ltac:(lia) ltac:(cbn [length]; lia))).
  cbn [length].
  pose (pre := 48 :: der_len (Z.of_nat (length v))).
  assert (EP : Z.of_nat (length pre) = hl v) by (unfold pre, hl; cbn [length]; lia).
  change (Z.of_nat 0) with 0. rewrite !Z.add_0_l. rewrite <- !EP.
  change 2 with (Z.of_nat (length [0; 48])).
  replace (Z.of_nat (length pre) + Z.of_nat (length v))
    with (Z.of_nat (length (pre ++ flat_map fdata fs))).
  2:{ fold v. rewrite app_length. lia. }
  apply (rec_loop fs [0; 48] pre post); [exact HF|exact Hm| |lia|lia].
  rewrite Hd. unfold tlv. fold v. unfold pre. cbn.
  rewrite <- app_assoc. reflexivity.
Qed.

(** ** SEQUENCE OF: the extended key usage *)
Lemma seqof_loop : forall t i vs pre post n tdp len flags tag hdr cdp cdl ch c,
  machine = [0; 48; 2; t; i; 34; 2; 29] ->
  0 <= t < 256 -> Z.land t 31 <> 31 -> has t 32 = false -> 0 <= i < nact ->
  vs <> [] ->
  data = pre ++ flat_map (tlv t) vs ++ post ->
  cdl <> 0 -> 0 <= cdp <= Z.of_nat (length pre) ->
  fin (2 * length vs + S n)%nat
    (mkst 2 (Z.of_nat (length pre)) tdp len
       (Z.of_nat (length (pre ++ flat_map (tlv t) vs))) flags tag hdr
       [(cdp, cdl, ch)] [], c) = Some (0, c ++ map (fun v => (i, t, v)) vs).
Proof.
  intros t i vs. induction vs as [|v vs IH];
    intros pre post n tdp len flags tag hdr cdp cdl ch c Hm T1 T2 T3 Ti NE Hd Hn Hc;
    [contradiction|].
  clear NE. cbn [flat_map length map] in *.
  replace (2 * S (length vs) + S n)%nat with (S (S (2 * length vs + S n)))%nat by lia.
  unfold fin.
  rewrite (fin_S machine data nact _ _ _
    (trip_leaf machine data nact Hmax [0; 48] i [34; 2; 29]
       pre t v (flat_map (tlv t) vs ++ post) 2 _ _
       (Z.of_nat (length (pre ++ tlv t v ++ flat_map (tlv t) vs)))
       _ _ _ _ _ _ Hm eq_refl
       ltac:(rewrite Hd, <- app_assoc; reflexivity)
       ltac:(rewrite !app_length, !Nat2Z.inj_add, tlv_length; lia)
       ltac:(rewrite Hd, !app_length; lia) T1 T2 T3 Ti)).
  pose proof (hl_range v) as HL. pose proof (tlv_length t v) as TL.
  destruct vs as [|v2 vs].
  - cbn [flat_map map length] in *. rewrite !app_nil_r in *.
    rewrite (fin_S machine data nact _ _ _
      (trip_out machine data nact [0; 48; 2; t; i] 2 [29] (2 + 3)
         (Z.of_nat (length (pre ++ tlv t v))) _ _ _ _ _ cdp cdl ch _ _ _
         Hm eq_refl Hn
         ltac:(rewrite app_length; lia)
         ltac:(rewrite Hd, !app_length in Hmax; rewrite app_length; lia))).
    change (2 * 0 + S n)%nat with (S n).
    rewrite (fin_end machine data nact n _ 0); [reflexivity|].
    apply (trip_complete machine data nact [0; 48; 2; t; i; 34; 2] []); [exact Hm|reflexivity].
  - pose proof (hl_range v2) as HL2. pose proof (tlv_length t v2) as TL2.
    rewrite (fin_S machine data nact _ _ _
      (trip_again machine data nact [0; 48; 2; t; i] 2 [29] (2 + 3)
         (Z.of_nat (length (pre ++ tlv t v))) _ _
         (Z.of_nat (length (pre ++ tlv t v ++ flat_map (tlv t) (v2 :: vs))))
         _ _ _ cdp cdl ch _ _ _
         Hm eq_refl Hn
         ltac:(cbn [flat_map]; rewrite !app_length; lia))).
    fold fin. rewrite app_assoc.
    rewrite (IH (pre ++ tlv t v) post); try assumption.
    + rewrite <- app_assoc. reflexivity.
    + discriminate.
    + rewrite Hd, <- !app_assoc. reflexivity.
    + rewrite app_length. lia.
Qed.

Theorem seqof_ok : forall t i vs post n,
  machine = [0; 48; 2; t; i; 34; 2; 29] ->
  0 <= t < 256 -> Z.land t 31 <> 31 -> has t 32 = false -> 0 <= i < nact ->
  vs <> [] ->
  data = tlv 48 (flat_map (tlv t) vs) ++ post ->
  fin (2 * length vs + S (S n))%nat (st0 (Z.of_nat (length data)), []) =
  Some (0, map (fun v => (i, t, v)) vs).
Proof.
  intros t i vs post n Hm T1 T2 T3 Ti NE Hd.
  set (v := flat_map (tlv t) vs) in *.
  pose proof (hl_range v) as HL. pose proof (tlv_length 48 v) as TL.
  replace (2 * length vs + S (S n))%nat with (S (2 * length vs + S n))%nat by lia.
  assert (DL : Z.of_nat (length data) = hl v + Z.of_nat (length v) + Z.of_nat (length post)).
  { rewrite Hd, app_length. lia. }
  unfold fin, st0.
  rewrite (fin_S machine data nact _ _ _
    (trip_seq machine data nact Hmax [] [2; t; i; 34; 2; 29] [] v post
       0 0 0 (Z.of_nat (length data)) 0 0 0 [] [] [] Hm eq_refl Hd
       ltac:(cbn [length]; lia) ltac:(lia) ltac:(cbn [length]; lia))).
  cbn [length].
  pose (pre := 48 :: der_len (Z.of_nat (length v))).
  assert (EP : Z.of_nat (length pre) = hl v) by (unfold pre, hl; cbn [length]; lia).
  change (Z.of_nat 0) with 0. rewrite !Z.add_0_l. rewrite <- !EP.
  replace (Z.of_nat (length pre) + Z.of_nat (length v))
    with (Z.of_nat (length (pre ++ flat_map (tlv t) vs))).
  2:{ fold v. rewrite app_length. lia. }
  apply (seqof_loop t i vs pre post); try assumption; try lia.
  rewrite Hd. unfold tlv. fold (tlv t). unfold pre. cbn.
  rewrite <- app_assoc. reflexivity.
Qed.

(** ** A single element: key usage, subject key identifier *)
Theorem single_ok : forall t i v post n,
  machine = [2; t; i; 29] ->
  0 <= t < 256 -> Z.land t 31 <> 31 -> has t 32 = false -> 0 <= i < nact ->
  data = tlv t v ++ post ->
  fin (S (S n)) (st0 (Z.of_nat (length data)), []) = Some (0, [(i, t, v)]).
Proof.
  intros t i v post n Hm T1 T2 T3 Ti Hd.
  pose proof (hl_range v) as HL. pose proof (tlv_length t v) as TL.
  unfold fin, st0.
  rewrite (fin_S machine data nact _ _ _
    (trip_leaf machine data nact Hmax [] i [29] [] t v post 0 _ _
       (Z.of_nat (length data)) _ _ _ _ _ _ Hm eq_refl Hd
       ltac:(rewrite Hd, app_length; cbn [length]; lia) ltac:(lia) T1 T2 T3 Ti)).
  rewrite (fin_end machine data nact _ _ 0); [reflexivity|].
  apply (trip_complete machine data nact [2; t; i] []); [exact Hm|reflexivity].
Qed.

End Record.

(** ** Two optional fields: the basic constraints *)
Section Optional.
Variable data : list Z.
Hypothesis Hmax : Z.of_nat (length data) <= 2 ^ 18.

Definition oentry (i t : Z) (o : option (list Z)) : list entry :=
  match o with Some v => [(i, t, v)] | None => [] end.
Definition odata (t : Z) (o : option (list Z)) : list Z :=
  match o with Some v => tlv t v | None => [] end.

Theorem optional_ok : forall ca pl post n,
  data = tlv 48 (odata 1 ca ++ odata 2 pl) ++ post ->
  final (list entry) (logact data) 2 [0; 48; 3; 1; 0; 3; 2; 1; 32; 29] data
    (5 + n) (st0 (Z.of_nat (length data)), []) =
  Some (0, oentry 0 1 ca ++ oentry 1 2 pl).
Proof.
  intros ca pl post n Hd.
  set (machine := [0; 48; 3; 1; 0; 3; 2; 1; 32; 29]).
  set (v := odata 1 ca ++ odata 2 pl) in *.
  pose proof (hl_range v) as HL. pose proof (tlv_length 48 v) as TL.
  assert (DL : Z.of_nat (length data) = hl v + Z.of_nat (length v) + Z.of_nat (length post)).
  { rewrite Hd, app_length. lia. }
  change (5 + n)%nat with (S (S (S (S (S n))))). unfold st0.
  rewrite (fin_S machine data 2 _ _ _
    (trip_seq machine data 2 Hmax [] [3; 1; 0; 3; 2; 1; 32; 29] [] v post
       0 0 0 (Z.of_nat (length data)) 0 0 0 [] [] [] eq_refl eq_refl Hd
       ltac:(cbn [length]; lia) ltac:(lia) ltac:(cbn [length]; lia))).
  cbn [length]. change (Z.of_nat 0) with 0. rewrite !Z.add_0_l.
  pose (pre := 48 :: der_len (Z.of_nat (length v))).
  assert (EP : Z.of_nat (length pre) = hl v) by (unfold pre, hl; cbn [length]; lia).
  assert (Hd1 : data = pre ++ odata 1 ca ++ odata 2 pl ++ post).
  { rewrite Hd. unfold tlv. fold v. unfold pre. cbn. rewrite <- app_assoc. unfold v.
    rewrite <- app_assoc. reflexivity. }
  rewrite <- EP.
  assert (Lv : Z.of_nat (length v) =
               Z.of_nat (length (odata 1 ca)) + Z.of_nat (length (odata 2 pl))).
  { unfold v. rewrite app_length. lia. }
  (* after the first optional field *)
  assert (STEP1 : exists tdp len fl tg hd,
    step (list entry) (logact data) 2 machine data
      (mkst 2 (Z.of_nat (length pre)) (Z.of_nat (length pre)) (Z.of_nat (length v))
         (Z.of_nat (length pre) + Z.of_nat (length v))
         (Z.lor (Z.land 48 F_CONS) F_MATCHED) 48 (Z.of_nat (length pre))
         [(Z.of_nat (length pre), Z.of_nat (length data), Z.of_nat (length pre))] [], []) =
    Go (mkst 5 (Z.of_nat (length (pre ++ odata 1 ca))) tdp len
          (Z.of_nat (length pre) + Z.of_nat (length v)) fl tg hd
          [(Z.of_nat (length pre), Z.of_nat (length data), Z.of_nat (length pre))] [],
        oentry 0 1 ca)).
  { destruct ca as [cav|]; cbn [odata oentry length app] in *.
    - do 5 eexists.
      rewrite (trip_leaf_op machine data 2 Hmax 3 [0; 48] 0 [3; 2; 1; 32; 29] pre 1 cav
        (odata 2 pl ++ post)); try reflexivity; try lia; try discriminate.
      + exact Hd1.
      + rewrite tlv_length in Lv. lia.
    - destruct pl as [plv|]; cbn [odata length app] in *.
      + do 5 eexists.
        rewrite (trip_skip_other machine data 2 Hmax [0; 48] 1 0 [3; 2; 1; 32; 29] pre 2 plv
          post); try reflexivity; try lia; try discriminate.
        * rewrite app_nil_r. reflexivity.
        * exact Hd1.
        * rewrite tlv_length in Lv. lia.
      + do 5 eexists.
        replace (Z.of_nat (length pre) + Z.of_nat (length v)) with (Z.of_nat (length pre)) by lia.
        rewrite (trip_skip_end machine data 2 [0; 48] 1 0 [3; 2; 1; 32; 29]); reflexivity. }
  destruct STEP1 as (tdp1 & len1 & fl1 & tg1 & hd1 & STEP1).
  change (0 + 2) with 2.
  rewrite (fin_S machine data 2 _ _ _ STEP1). clear STEP1.
  assert (STEP2 : exists tdp len fl tg hd,
    step (list entry) (logact data) 2 machine data
      (mkst 5 (Z.of_nat (length (pre ++ odata 1 ca))) tdp1 len1
         (Z.of_nat (length pre) + Z.of_nat (length v)) fl1 tg1 hd1
         [(Z.of_nat (length pre), Z.of_nat (length data), Z.of_nat (length pre))] [],
       oentry 0 1 ca) =
    Go (mkst 8 (Z.of_nat (length pre) + Z.of_nat (length v)) tdp len
          (Z.of_nat (length pre) + Z.of_nat (length v)) fl tg hd
          [(Z.of_nat (length pre), Z.of_nat (length data), Z.of_nat (length pre))] [],
        oentry 0 1 ca ++ oentry 1 2 pl)).
  { assert (E1 : Z.of_nat (length (pre ++ odata 1 ca)) =
                 Z.of_nat (length pre) + Z.of_nat (length (odata 1 ca)))
      by (rewrite app_length; lia).
    destruct pl as [plv|]; cbn [odata oentry length app] in *.
    - do 5 eexists.
      rewrite (trip_leaf_op machine data 2 Hmax 3 [0; 48; 3; 1; 0] 1 [32; 29]
        (pre ++ odata 1 ca) 2 plv post); try reflexivity; try lia; try discriminate.
      + replace (Z.of_nat (length ((pre ++ odata 1 ca) ++ tlv 2 plv)))
          with (Z.of_nat (length pre) + Z.of_nat (length v)).
        * reflexivity.
        * rewrite app_length, Nat2Z.inj_add. lia.
      + rewrite Hd1, <- !app_assoc. reflexivity.
      + rewrite tlv_length in Lv. lia.
    - do 5 eexists.
      replace (Z.of_nat (length (pre ++ odata 1 ca)))
        with (Z.of_nat (length pre) + Z.of_nat (length v)) by lia.
      rewrite (trip_skip_end machine data 2 [0; 48; 3; 1; 0] 2 1 [32; 29]); try reflexivity.
      rewrite app_nil_r. reflexivity. }
  destruct STEP2 as (tdp2 & len2 & fl2 & tg2 & hd2 & STEP2).
  rewrite (fin_S machine data 2 _ _ _ STEP2). clear STEP2.
  rewrite (fin_S machine data 2 _ _ _
    (trip_end machine data 2 [0; 48; 3; 1; 0; 3; 2; 1] [29] 8
       (Z.of_nat (length pre) + Z.of_nat (length v)) _ _ _ _ _ (Z.of_nat (length pre))
       (Z.of_nat (length data)) (Z.of_nat (length pre)) [] [] _ eq_refl eq_refl
       ltac:(lia) ltac:(lia) ltac:(lia))).
  rewrite (fin_end machine data 2 _ _ 0); [reflexivity|].
  apply (trip_complete machine data 2 [0; 48; 3; 1; 0; 3; 2; 1; 32] []); reflexivity.
Qed.

End Optional.
