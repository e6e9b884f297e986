(** * C100, C101, C102: private-key containers, names and extensions as
    written by the certificate generator *)
From Coq Require Import ZArith List Lia Bool.
From Verif Require Import X509Model Asn1Model Asn1Tables Asn1DerSpec Asn1Proof PropAsn1
  Asn1EncModel Asn1EncSpec Asn1EncProof OidTables OidModel PropAsn1Enc X509GenModel.
Import ListNotations.
Open Scope Z_scope.

(** ** C100: private-key containers *)

Lemma write_tlv_fits maxlen dst t v :
  llen (dst ++ tlv t v) <= maxlen -> maxlen < 2 ^ 24 ->
  write_tlv maxlen dst t v = Go (dst ++ tlv t v).
Proof.
  intros L M. unfold write_tlv. unfold tlv in *. unfold llen in L.
  rewrite app_length in L. cbn [length] in L. rewrite app_length in L.
  change (2 ^ 24) with 16777216 in M.
  rewrite (proj2 (Z.ltb_ge _ 1)) by (unfold llen; lia).
  rewrite C98_length by (unfold llen; lia).
  change (2 ^ 24) with 16777216. unfold llen.
  rewrite (proj2 (Z.ltb_lt _ 16777216)) by lia.
  rewrite (proj2 (Z.leb_le _ _)) by lia. cbn [andb bind].
  rewrite (proj2 (Z.ltb_ge _ _)) by lia. reflexivity.
Qed.

Lemma write_tlv_over maxlen dst t v :
  maxlen < llen (dst ++ tlv t v) ->
  exists r, write_tlv maxlen dst t v = Fin r /\ (r = -22 \/ r = -75).
Proof.
  intro L. pose proof (write_tlv_ok maxlen dst t v) as K.
  destruct (write_tlv maxlen dst t v) as [d|r|]; [destruct K as [-> K]; lia| |destruct K].
  exists r. split; [reflexivity|exact K].
Qed.

(** either the whole of [d], or an error *)
Definition whole_or_error {C : Type} (fit : Prop) (d : list Z) (c : C)
  (x : out (est * C + list Z * C)) : Prop :=
  (fit /\ x = Go (inr (d, c))) \/ (~ fit /\ exists r, x = Fin r /\ (r = -22 \/ r = -75)).

Lemma tlv_grows t v : llen v < llen (tlv t v).
Proof. unfold llen, tlv. cbn [length]. rewrite app_length. lia. Qed.

(** ML-DSA and SLH-DSA: SEQUENCE { BIT STRING with no unused bits and the raw
    key }, if the caller's buffer and the encoder's can hold it *)
Lemma one_field C (act : Z -> Z -> Z -> C -> Z * list Z * Z * C) (v : list Z) c avail :
  0 <= avail -> v <> [] ->
  (forall room tag, act 0 room tag c =
     (if room <? llen v then (EOVERFLOW_, [], tag, c) else (0, v, tag, c))) ->
  whole_or_error (llen (tlv SEQ (tlv BTS v)) <= Z.min (2 ^ 18) avail) (tlv SEQ (tlv BTS v)) c
    (ber_encoder C act 1 [0; 48; 2; 3; 0; 32; 29] avail 5 c).
Proof.
  intros Av NE Ha. unfold ber_encoder.
  assert (Ml : 0 <= maxlen_of (2 ^ 18) avail < 2 ^ 24) by (unfold maxlen_of; lia).
  change (Z.min (2 ^ 18) avail) with (maxlen_of (2 ^ 18) avail).
  set (ml := maxlen_of (2 ^ 18) avail) in *. clearbody ml.
  pose proof (tlv_grows BTS v) as G1. pose proof (tlv_grows SEQ (tlv BTS v)) as G2.
  assert (NV : (llen v =? 0) = false) by (destruct v; [congruence|reflexivity]).
  assert (NT : (llen (tlv BTS v) =? 0) = false) by reflexivity.
  set (s1 := mkest 2 [] [(Some [], 0); (Some [], 48)] [] 0).
  assert (E0 : forall n, erun C act 1 [0; 48; 2; 3; 0; 32; 29] 10 ml (2 ^ 18) (S n) (est0, c) =
          erun C act 1 [0; 48; 2; 3; 0; 32; 29] 10 ml (2 ^ 18) n (s1, c)) by reflexivity.
  rewrite E0. clear E0. cbn [erun].
  assert (E1 : estep C act 1 [0; 48; 2; 3; 0; 32; 29] 10 ml (2 ^ 18) (s1, c) =
    (r <- call_enc C act 1 ml 0 (mkest 2 [] [(Some [], 3); (Some [], 48)] [] 0) c ;;
     r <- (let '(s, c) := r in s <- write_out ml 3 s ;; Go (s, c)) ;; Go (inl r))).
  { unfold s1. cbv - [call_enc write_out].
    destruct (call_enc C act 1 ml 0 (mkest 2 [] [(Some [], 3); (Some [], 48)] [] 0) c) as [[s c']|r|];
      reflexivity. }
  rewrite E1. clear E1. unfold call_enc. cbn [e_lv Z.leb Z.ltb Z.compare Pos.compare Pos.compare_cont andb].
  change (llen []) with 0. rewrite Z.sub_0_r, Ha.
  destruct (Z.ltb_spec ml (llen v)) as [H|H].
  { right. split; [lia|]. eexists. split; [reflexivity|]. right. reflexivity. }
  cbn [Z.ltb Z.compare Z.eqb]. rewrite Z.gtb_ltb, (proj2 (Z.ltb_ge ml (llen v))) by lia.
  cbn [bind app e_pc e_main e_js e_flags]. unfold write_out at 1. cbn [e_lv e_flags].
  rewrite NV. cbn [andb].
  destruct (Z.le_gt_cases (llen (tlv BTS v)) ml) as [H1|H1].
  2:{ right. split; [lia|]. destruct (write_tlv_over ml [] 3 v H1) as (r & -> & Hr).
      exists r. split; [reflexivity|exact Hr]. }
  rewrite (write_tlv_fits ml [] 3 v H1) by lia. cbn [bind app].
  set (s2 := mkest _ _ _ _ _).
  assert (E2 : estep C act 1 [0; 48; 2; 3; 0; 32; 29] 10 ml (2 ^ 18) (s2, c) =
    (s <- write_out ml 1 (mkest 5 [] [(Some (tlv 3 v), 48)] [] 0) ;; Go (inl (s, c)))).
  { unfold s2. cbv - [write_out tlv].
    destruct (write_out ml 1 (mkest 5 [] [(Some (tlv 3 v), 48)] [] 0)); reflexivity. }
  rewrite E2. clear E2. unfold write_out. cbn [e_lv e_flags e_main]. 
  change (tlv 3 v) with (tlv BTS v). rewrite NT. cbn [andb].
  destruct (Z.le_gt_cases (llen (tlv SEQ (tlv BTS v))) ml) as [H2|H2].
  2:{ right. split; [lia|]. destruct (write_tlv_over ml [] 48 (tlv BTS v) H2) as (r & -> & Hr).
      exists r. split; [reflexivity|exact Hr]. }
  rewrite (write_tlv_fits ml [] 48 (tlv BTS v) H2) by lia.
  left. split; [exact H2|]. reflexivity.
Qed.

Lemma set_bit_string_ne room sk : sk <> [] ->
  set_bit_string room sk = if room <? llen (0 :: sk) then (EOVERFLOW_, []) else (0, 0 :: sk).
Proof. destruct sk; [congruence|reflexivity]. Qed.

Theorem C100_mldsa : forall sk avail, 0 <= avail -> sk <> [] ->
  let d := tlv SEQ (tlv BTS (0 :: sk)) in
  whole_or_error (llen d <= Z.min (2 ^ 18) avail) d tt (encode_mldsa_sk sk avail) /\
  whole_or_error (llen d <= Z.min (2 ^ 18) avail) d tt (encode_slhdsa_sk sk avail).
Proof.
  intros sk avail Av NE d.
  assert (A : forall room tag, privkey_act sk 0 room tag tt =
     (if room <? llen (0 :: sk) then (EOVERFLOW_, [], tag, tt) else (0, 0 :: sk, tag, tt))).
  { intros room tag. unfold privkey_act. rewrite set_bit_string_ne by exact NE.
    destruct (room <? llen (0 :: sk)); reflexivity. }
  split; (apply (one_field unit (privkey_act sk) (0 :: sk)); [exact Av|discriminate|exact A]).
Qed.
Print Assumptions C100_mldsa.

(** the composite key: ML-DSA first, then ED25519 *)
Theorem C100_composite : forall mldsa ed avail, 0 <= avail -> mldsa <> [] -> ed <> [] ->
  let d := tlv SEQ (tlv BTS (0 :: mldsa) ++ tlv BTS (0 :: ed)) in
  whole_or_error (llen d <= Z.min (2 ^ 18) avail) d tt (encode_composite_sk mldsa ed avail).
Proof.
  intros mldsa ed avail Av N1 N2 d. unfold encode_composite_sk, ber_encoder.
  change x509_composite_mldsa_privkey_machine with [0; 48; 2; 3; 1; 2; 3; 0; 32; 29].
  change x509_composite_mldsa_privkey_actions with 2.
  assert (A0 : forall room tag, composite_act mldsa ed 0 room tag tt =
     (if room <? llen (0 :: ed) then (EOVERFLOW_, [], tag, tt) else (0, 0 :: ed, tag, tt))).
  { intros room tag. unfold composite_act. cbn [Z.eqb]. rewrite set_bit_string_ne by exact N2.
    destruct (room <? llen (0 :: ed)); reflexivity. }
  assert (A1 : forall room tag, composite_act mldsa ed 1 room tag tt =
     (if room <? llen (0 :: mldsa) then (EOVERFLOW_, [], tag, tt) else (0, 0 :: mldsa, tag, tt))).
  { intros room tag. unfold composite_act. cbn [Z.eqb]. rewrite set_bit_string_ne by exact N1.
    destruct (room <? llen (0 :: mldsa)); reflexivity. }
  generalize dependent (composite_act mldsa ed). intros act A0 A1.
  assert (NE1 : (0 :: mldsa) <> []) by discriminate. assert (NE2 : (0 :: ed) <> []) by discriminate.
  unfold d. clear d N1 N2. revert A0 A1 NE1 NE2.
  generalize (0 :: mldsa) (0 :: ed). clear mldsa ed. intros v1 v2 A0 A1 N1 N2.
  assert (Ml : 0 <= maxlen_of (2 ^ 18) avail < 2 ^ 24) by (unfold maxlen_of; lia).
  change (Z.min (2 ^ 18) avail) with (maxlen_of (2 ^ 18) avail).
  set (ml := maxlen_of (2 ^ 18) avail) in *. clearbody ml.
  set (M := [0; 48; 2; 3; 1; 2; 3; 0; 32; 29]).
  pose proof (tlv_grows BTS v1) as G1. pose proof (tlv_grows BTS v2) as G2.
  pose proof (tlv_grows SEQ (tlv BTS v1 ++ tlv BTS v2)) as G3.
  assert (G4 : llen (tlv BTS v1 ++ tlv BTS v2) = llen (tlv BTS v1) + llen (tlv BTS v2))
    by (unfold llen; rewrite app_length; lia).
  assert (P1 : 0 <= llen (tlv BTS v1)) by (unfold llen; lia).
  assert (P2 : 0 <= llen (tlv BTS v2)) by (unfold llen; lia).
  assert (NV1 : (llen v1 =? 0) = false) by (destruct v1; [congruence|reflexivity]).
  assert (NV2 : (llen v2 =? 0) = false) by (destruct v2; [congruence|reflexivity]).
  set (s1 := mkest 2 [] [(Some [], 0); (Some [], 48)] [] 0).
  assert (E0 : forall n, erun unit act 2 M 10 ml (2 ^ 18) (S n) (est0, tt) =
          erun unit act 2 M 10 ml (2 ^ 18) n (s1, tt)) by reflexivity.
  rewrite E0. clear E0. cbn [erun].
  assert (E1 : forall c, estep unit act 2 M 10 ml (2 ^ 18) (s1, c) =
    (r <- call_enc unit act 2 ml 1 (mkest 2 [] [(Some [], 3); (Some [], 48)] [] 0) c ;;
     r <- (let '(s, c) := r in s <- write_out ml 3 s ;; Go (s, c)) ;; Go (inl r))).
  { intro c. unfold s1, M. cbv - [call_enc write_out].
    destruct (call_enc unit act 2 ml 1 (mkest 2 [] [(Some [], 3); (Some [], 48)] [] 0) c) as [[s c']|r|];
      reflexivity. }
  rewrite E1. clear E1. unfold call_enc at 1. cbn [e_lv Z.leb Z.ltb Z.compare Pos.compare Pos.compare_cont andb].
  change (llen []) with 0. rewrite Z.sub_0_r, A1.
  destruct (Z.ltb_spec ml (llen v1)) as [H|H].
  { right. split; [lia|]. eexists. split; [reflexivity|]. right. reflexivity. }
  cbn [Z.ltb Z.compare Z.eqb]. rewrite Z.gtb_ltb, (proj2 (Z.ltb_ge ml (llen v1))) by lia.
  cbn [bind app e_pc e_main e_js e_flags]. unfold write_out at 1. cbn [e_lv e_flags].
  rewrite NV1. cbn [andb].
  destruct (Z.le_gt_cases (llen (tlv BTS v1)) ml) as [H1|H1].
  2:{ right. split; [lia|]. destruct (write_tlv_over ml [] 3 v1 H1) as (r & -> & Hr).
      exists r. split; [reflexivity|exact Hr]. }
  rewrite (write_tlv_fits ml [] 3 v1 H1) by lia. cbn [bind app].
  set (s2 := mkest _ _ _ _ _).
  assert (E2 : forall c, estep unit act 2 M 10 ml (2 ^ 18) (s2, c) =
    (r <- call_enc unit act 2 ml 0 (mkest 5 [] [(Some [], 3); (Some (tlv 3 v1), 48)] [] 0) c ;;
     r <- (let '(s, c) := r in s <- write_out ml 3 s ;; Go (s, c)) ;; Go (inl r))).
  { intro c. unfold s2, M. cbv - [call_enc write_out tlv].
    destruct (call_enc unit act 2 ml 0 (mkest 5 [] [(Some [], 3); (Some (tlv 3 v1), 48)] [] 0) c) as [[s c']|r|];
      reflexivity. }
  rewrite E2. clear E2 s2. unfold call_enc at 1. cbn [e_lv Z.leb Z.ltb Z.compare Pos.compare Pos.compare_cont andb].
  change (llen []) with 0. rewrite Z.sub_0_r, A0.
  destruct (Z.ltb_spec ml (llen v2)) as [H0|H0].
  { right. split; [lia|]. eexists. split; [reflexivity|]. right. reflexivity. }
  cbn [Z.ltb Z.compare Z.eqb]. rewrite Z.gtb_ltb, (proj2 (Z.ltb_ge ml (llen v2))) by lia.
  cbn [bind app e_pc e_main e_js e_flags]. unfold write_out at 1. cbn [e_lv e_flags].
  rewrite NV2. cbn [andb].
  change (tlv 3 v1) with (tlv BTS v1).
  destruct (Z.le_gt_cases (llen (tlv BTS v1 ++ tlv BTS v2)) ml) as [H2|H2].
  2:{ right. split; [lia|]. destruct (write_tlv_over ml (tlv BTS v1) 3 v2 H2) as (r & -> & Hr).
      exists r. split; [reflexivity|exact Hr]. }
  rewrite (write_tlv_fits ml (tlv BTS v1) 3 v2 H2) by lia. cbn [bind].
  set (s3 := mkest _ _ _ _ _).
  assert (E3 : estep unit act 2 M 10 ml (2 ^ 18) (s3, tt) =
    (s <- write_out ml 1 (mkest 8 [] [(Some (tlv BTS v1 ++ tlv 3 v2), 48)] [] 0) ;; Go (inl (s, tt)))).
  { unfold s3, M. cbv - [write_out tlv app].
    destruct (write_out ml 1 (mkest 8 [] [(Some (tlv 3 v1 ++ tlv 3 v2), 48)] [] 0)); reflexivity. }
  rewrite E3. clear E3 s3. unfold write_out. cbn [e_lv e_flags e_main].
  change (tlv 3 v2) with (tlv BTS v2).
  replace (llen (tlv BTS v1 ++ tlv BTS v2) =? 0) with false by reflexivity. cbn [andb].
  destruct (Z.le_gt_cases (llen (tlv SEQ (tlv BTS v1 ++ tlv BTS v2))) ml) as [H3|H3].
  2:{ right. split; [lia|]. destruct (write_tlv_over ml [] 48 (tlv BTS v1 ++ tlv BTS v2) H3) as (r & -> & Hr).
      exists r. split; [reflexivity|exact Hr]. }
  rewrite (write_tlv_fits ml [] 48 (tlv BTS v1 ++ tlv BTS v2) H3) by lia.
  left. split; [exact H3|]. reflexivity.
Qed.
Print Assumptions C100_composite.

(** writing a key and reading it back: the load function gets the key *)
Theorem C100_roundtrip : forall sk avail, 0 <= avail -> sk <> [] ->
  forall x, encode_mldsa_sk sk avail = Go (inr x) \/ encode_slhdsa_sk sk avail = Go (inr x) ->
  exists v, loaded v = Some sk /\ forall n, (5 <= n)%nat ->
    decode x509_mldsa_privkey_machine x509_mldsa_privkey_actions (fst x) n = Some (0, [(0, BTS, v)]) /\
    decode x509_slhdsa_privkey_machine x509_slhdsa_privkey_actions (fst x) n = Some (0, [(0, BTS, v)]).
Proof.
  intros sk avail Av NE x H. exists (0 :: sk). split; [reflexivity|].
  destruct (C100_mldsa sk avail Av NE) as [A B].
  assert (K : llen (tlv SEQ (tlv BTS (0 :: sk))) <= Z.min (2 ^ 18) avail /\
              fst x = tlv SEQ (tlv BTS (0 :: sk))).
  { destruct H as [H|H]; [rewrite H in A; destruct A as [[F E]|[_ (r & E & _)]]
                         |rewrite H in B; destruct B as [[F E]|[_ (r & E & _)]]];
      try discriminate; injection E as ->; split; [exact F|reflexivity|exact F|reflexivity]. }
  destruct K as [F ->]. intros n Hn.
  apply C92_mldsa_privkey; [exact Hn|]. unfold llen in F. lia.
Qed.
Print Assumptions C100_roundtrip.

Theorem C100_composite_roundtrip : forall mldsa ed avail, 0 <= avail -> mldsa <> [] -> ed <> [] ->
  forall x, encode_composite_sk mldsa ed avail = Go (inr x) ->
  exists v w, loaded v = Some mldsa /\ loaded w = Some ed /\ forall n, (5 <= n)%nat ->
    decode x509_composite_mldsa_privkey_machine x509_composite_mldsa_privkey_actions (fst x) n =
      Some (0, [(1, BTS, v); (0, BTS, w)]).
Proof.
  intros mldsa ed avail Av N1 N2 x H. exists (0 :: mldsa), (0 :: ed).
  split; [reflexivity|]. split; [reflexivity|]. intros n Hn.
  pose proof (C100_composite mldsa ed avail Av N1 N2) as A. cbn zeta in A. rewrite H in A.
  destruct A as [[F E]|[_ (r & E & _)]]; [|discriminate].
  assert (X : fst x = tlv SEQ (tlv BTS (0 :: mldsa) ++ tlv BTS (0 :: ed)))
    by (injection E as ->; reflexivity).
  rewrite X. apply (C92_composite (0 :: mldsa) (0 :: ed) n Hn).
  unfold llen in F. lia.
Qed.
Print Assumptions C100_composite_roundtrip.

Example C100_ex : encode_mldsa_sk [7; 8] 7 = Go (inr ([48; 5; 3; 3; 0; 7; 8], tt)) /\
  encode_mldsa_sk [7; 8] 6 = Fin (-75) /\
  encode_composite_sk [7; 8] [9] 20 = Go (inr ([48; 9; 3; 3; 0; 7; 8; 3; 2; 0; 9], tt)).
Proof. repeat split; vm_compute; reflexivity. Qed.

(** ** C101: names *)

(** X.501 / RFC 5280 4.1.2.4: Name ::= SEQUENCE OF SET OF
    AttributeTypeAndValue; the generator puts all attributes into one SET *)
Definition attribute (t : Z) (s : Z * Z * list Z) : list Z :=
  tlv SEQ (tlv OID (oid_bytes (snd (fst s))) ++ tlv t (snd s)).
Definition present (n : gname) : list (Z * Z * list Z) :=
  filter (fun s => negb (llen (snd s) =? 0)) (segments n).

Lemma has_lor p b c : 0 <= p -> 0 <= b -> has (Z.lor p b) c = has p c || has b c.
Proof.
  intros _ _. unfold has. rewrite Z.land_lor_distr_l.
  destruct (Z.land p c =? 0) eqn:A, (Z.land b c =? 0) eqn:B; cbn [negb orb];
    rewrite ?Z.eqb_eq, ?Z.eqb_neq in *;
    try (rewrite A, B; reflexivity);
    rewrite (proj2 (Z.eqb_neq _ 0)); try reflexivity; rewrite Z.lor_eq_0_iff; tauto.
Qed.

Lemma filter_todo_next L p b o v rest :
  NoDup (map (fun s : Z * Z * list Z => fst (fst s)) L) ->
  (forall s s' : Z * Z * list Z, In s L -> In s' L ->
     has (fst (fst s)) (fst (fst s')) = (fst (fst s) =? fst (fst s'))) ->
  0 <= p -> (forall s : Z * Z * list Z, In s L -> 0 <= fst (fst s)) ->
  filter (todo p) L = (b, o, v) :: rest ->
  find (todo p) L = Some (b, o, v) /\ filter (todo (Z.lor p b)) L = rest /\
  existsb (todo (Z.lor p b)) L = negb (match rest with [] => true | _ => false end).
Proof.
  intros ND Hb P0 Pb F.
  assert (Fd : find (todo p) L = Some (b, o, v)).
  { clear - F. induction L as [|s L IH]; [discriminate|]. cbn [filter find] in *.
    destruct (todo p s); [injection F as -> _; reflexivity|exact (IH F)]. }
  assert (In0 : In (b, o, v) L).
  { assert (X : In (b, o, v) (filter (todo p) L)) by (rewrite F; left; reflexivity).
    apply filter_In in X. apply X. }
  assert (Td : forall s, In s L -> todo (Z.lor p b) s = todo p s && negb (b =? fst (fst s))).
  { intros s Hs. unfold todo. rewrite has_lor by (try exact P0; apply (Pb _ In0)).
    pose proof (Hb _ _ In0 Hs) as X. cbn [fst] in X. rewrite X.
    destruct (negb (llen (snd s) =? 0)), (has p (fst (fst s))), (b =? fst (fst s)); reflexivity. }
  assert (Fn : filter (todo (Z.lor p b)) L = rest).
  { clear Hb Fd. revert F ND Td. clear. induction L as [|s L IH]; intros F ND Td; [discriminate|].
    cbn [map] in ND. inversion ND as [|? ? N1 N2]; subst. cbn [filter] in *.
    rewrite (Td s (or_introl eq_refl)). destruct (todo p s) eqn:T.
    - injection F as -> <-. cbn [fst]. rewrite Z.eqb_refl. cbn [negb andb].
      apply filter_ext_in. intros x Hx. rewrite (Td x (or_intror Hx)).
      replace (b =? fst (fst x)) with false; [apply andb_true_r|].
      symmetry. apply Z.eqb_neq. intros ->. apply N1. cbn [fst].
      exact (in_map (fun s : Z * Z * list Z => fst (fst s)) _ _ Hx).
    - cbn [andb]. apply IH; [exact F|exact N2|]. intros x Hx. apply Td. right. exact Hx. }
  split; [exact Fd|]. split; [exact Fn|]. rewrite <- Fn. clear.
  induction L as [|s L IH]; [reflexivity|]. cbn [existsb filter].
  destruct (todo (Z.lor p b) s); [reflexivity|exact IH].
Qed.

Lemma segments_bits n :
  NoDup (map (fun s : Z * Z * list Z => fst (fst s)) (segments n)) /\
  (forall s s' : Z * Z * list Z, In s (segments n) -> In s' (segments n) ->
     has (fst (fst s)) (fst (fst s')) = (fst (fst s) =? fst (fst s'))) /\
  (forall s : Z * Z * list Z, In s (segments n) -> 0 <= fst (fst s)).
Proof.
  split; [|split].
  - cbn. repeat constructor; cbn; intuition discriminate.
  - intros s s' H H'. cbn in H, H'.
    repeat (destruct H as [<-|H]; [repeat (destruct H' as [<-|H']; [reflexivity|]); destruct H'|]).
    destruct H.
  - intros s H. cbn in H. repeat (destruct H as [<-|H]; [discriminate|]). destruct H.
Qed.

Lemma segment_oid n s : In s (segments n) -> 1 <= llen (oid_bytes (snd (fst s))) <= 20.
Proof.
  intro H. cbn in H.
  repeat (destruct H as [<-|H]; [vm_compute; split; discriminate|]). destruct H.
Qed.

(** one action that stores [w] and the value going into the level below *)
Lemma call_leaf C (act : Z -> Z -> Z -> C -> Z * list Z * Z * C) nact ml i pc main t rest js f c w t' c' :
  (0 <=? i) && (i <? nact) = true -> 0 <= ml -> llen w <= ml ->
  act i ml t c = (0, w, t', c') ->
  call_enc C act nact ml i (mkest pc main ((Some [], t) :: rest) js f) c =
  Go (mkest pc main ((Some w, t') :: rest) js f, c').
Proof.
  intros Hi Hm Hw Ha. unfold call_enc. cbn [e_lv e_pc e_main e_js e_flags]. rewrite Hi.
  change (llen []) with 0. rewrite Z.sub_0_r, Ha. cbn [Z.ltb Z.compare Z.eqb].
  rewrite Z.gtb_ltb, (proj2 (Z.ltb_ge ml _)) by exact Hw. reflexivity.
Qed.

Lemma write_below ml oplen pc main w t p pt rest js f :
  llen w <> 0 -> llen (p ++ tlv t w) <= ml -> ml < 2 ^ 24 ->
  write_out ml oplen (mkest pc main ((Some w, t) :: (Some p, pt) :: rest) js f) =
  Go (mkest (pc + oplen) main ((Some [], t) :: (Some (p ++ tlv t w), pt) :: rest) js (clear f E_ZERO)).
Proof.
  intros Nw Fit M. unfold write_out. cbn [e_lv e_flags e_pc e_main e_js].
  rewrite (proj2 (Z.eqb_neq _ 0)) by exact Nw. cbn [andb].
  rewrite write_tlv_fits by assumption. reflexivity.
Qed.

Lemma tlv_small t w : llen w < 65536 -> llen (tlv t w) <= llen w + 4.
Proof.
  intro H. unfold tlv, llen in *. cbn [length]. rewrite app_length. unfold der_len.
  destruct (Z.ltb_spec (Z.of_nat (length w)) 128); [cbn [length]; lia|].
  destruct (Z.ltb_spec (Z.of_nat (length w)) 256); [cbn [length]; lia|].
  rewrite (proj2 (Z.ltb_lt _ 65536)) by exact H. cbn [length]. lia.
Qed.
Lemma tlv_some t w : llen (tlv t w) <> 0.
Proof. unfold tlv, llen. cbn [length]. lia. Qed.
Lemma llen_app (a b : list Z) : llen (a ++ b) = llen a + llen b.
Proof. unfold llen. rewrite app_length. lia. Qed.

Notation XSTEP act := (estep Z act x509_actions x509_machine 10 (2 ^ 18) (2 ^ 18)).
Lemma prod_step act ret n s c s' c' :
  (e_pc s =? ret) = false ->
  XSTEP act (s, c) = Go (inl (s', c')) ->
  production Z act ret (S n) (s, c) = production Z act ret n (s', c').
Proof. intros H E. cbn [production]. rewrite H, E. reflexivity. Qed.

Definition ava_levels (t : Z) (ava set : list Z) : list (option (list Z) * Z) :=
  [(Some [], t); (Some ava, 48); (Some set, 49); (Some [], 48); (Some [], 48); (Some [], 48)].

(** the five trips for one attribute *)
Lemma ava_step nm p b o v rest t set n ml' :
  filter (todo p) (segments nm) = (b, o, v) :: rest -> 0 <= p -> llen v < 256 ->
  llen set <= 4000 -> ml' = tt ->
  production Z (name_act nm) 104 (5 + n)
    (mkest 91 [] [(Some [], t); (Some set, 49); (Some [], 48); (Some [], 48); (Some [], 48)] [19] 1, p) =
  production Z (name_act nm) 104 n
    (match rest with
     | [] => mkest 102 [] [(Some [], 49); (Some (tlv 49 (set ++ attribute 4 (b, o, v))), 48);
                           (Some [], 48); (Some [], 48)] [19] 1
     | _ => mkest 91 [] [(Some [], 48); (Some (set ++ attribute 4 (b, o, v)), 49); (Some [], 48);
                         (Some [], 48); (Some [], 48)] [19] 1
     end, Z.lor p b).
Proof.
  intros F P0 Lv Ls _. destruct (segments_bits nm) as (ND & Hb & Pb).
  destruct (filter_todo_next _ _ _ _ _ _ ND Hb P0 Pb F) as (Fd & Fn & Ex).
  assert (I0 : In (b, o, v) (segments nm) /\ todo p (b, o, v) = true).
  { apply filter_In. rewrite F. left. reflexivity. }
  destruct I0 as [I0 T0]. pose proof (segment_oid _ _ I0) as Lo. cbn [fst snd] in Lo.
  assert (Nv : llen v <> 0).
  { unfold todo in T0. cbn [snd] in T0. destruct (Z.eqb_spec (llen v) 0); [discriminate|assumption]. }
  set (od := oid_bytes o) in *.
  set (a1 := tlv 6 od). set (a2 := a1 ++ tlv 4 v).
  assert (L1 : llen a1 <= 24) by (unfold a1; pose proof (tlv_small 6 od); lia).
  assert (L2 : llen a2 <= 300) by (unfold a2; rewrite llen_app; pose proof (tlv_small 4 v); lia).
  assert (L3 : llen (tlv 48 a2) <= 304) by (pose proof (tlv_small 48 a2); lia).
  assert (M18 : (2 ^ 18 = 262144 /\ 2 ^ 18 < 2 ^ 24)%Z) by (split; reflexivity).
  (* 91 *)
  cbn [Nat.add]. rewrite (prod_step (name_act nm) 104 _ _ _ (mkest 93 [] (ava_levels 0 [] set) [19] 1) p);
    [|reflexivity|vm_compute; reflexivity].
  (* 93 *)
  rewrite (prod_step (name_act nm) 104 _ _ _ (mkest 96 [] (ava_levels 6 a1 set) [19] 1) p); [|reflexivity|].
  2:{ transitivity (r <- call_enc Z (name_act nm) x509_actions (2 ^ 18) 7 (mkest 93 [] (ava_levels 6 [] set) [19] 1) p ;;
        r <- (let '(s, c) := r in s <- write_out (2 ^ 18) 3 s ;; Go (s, c)) ;; Go (inl r) : out (est * Z + list Z * Z)).
      { cbv - [call_enc write_out name_act Z.pow].
        destruct (call_enc Z _ _ _ _ _ _) as [[? ?]|?|]; reflexivity. }
      unfold ava_levels at 1.
      rewrite (call_leaf Z (name_act nm) x509_actions (2 ^ 18) 7 93 [] 6 _ [19] 1 p od 6 p);
        [|reflexivity|lia|lia|].
      2:{ unfold name_act, name_OID_enc. cbn [Z.eqb Pos.eqb]. rewrite Fd. unfold put_bytes. fold od.
          rewrite (proj2 (Z.ltb_ge _ _)) by lia. reflexivity. }
      cbn [bind]. rewrite write_below; [reflexivity|lia| |lia].
      cbn [app]. fold a1. lia. }
  (* 96 *)
  rewrite (prod_step (name_act nm) 104 _ _ _ (mkest 98 [] (ava_levels 4 a2 set) [19] 1) (Z.lor p b)); [|reflexivity|].
  2:{ transitivity (r <- call_enc Z (name_act nm) x509_actions (2 ^ 18) 4 (mkest 96 [] (ava_levels 4 a1 set) [19] 1) p ;;
        r <- (let '(s, c) := r in s <- write_out (2 ^ 18) 2 s ;; Go (s, c)) ;; Go (inl r) : out (est * Z + list Z * Z)).
      { cbv - [call_enc write_out name_act Z.pow a1].
        destruct (call_enc Z _ _ _ _ _ _) as [[? ?]|?|]; reflexivity. }
      unfold ava_levels at 1.
      rewrite (call_leaf Z (name_act nm) x509_actions (2 ^ 18) 4 96 [] 4 _ [19] 1 p v 4 (Z.lor p b));
        [|reflexivity|lia|lia|].
      2:{ unfold name_act, name_segment_enc. cbn [Z.eqb Pos.eqb]. rewrite Fd. unfold put_bytes.
          rewrite (proj2 (Z.ltb_ge _ _)) by lia. reflexivity. }
      cbn [bind]. rewrite write_below; [reflexivity|lia| |lia]. fold a2. lia. }
  (* 98 *)
  set (cf := if existsb (todo (Z.lor p b)) (segments nm) then 5 else 1).
  rewrite (prod_step (name_act nm) 104 _ _ _
    (mkest 100 [] [(Some [], 48); (Some (set ++ tlv 48 a2), 49); (Some [], 48); (Some [], 48); (Some [], 48)] [19] cf)
    (Z.lor p b)); [|reflexivity|].
  2:{ transitivity (r <- call_enc Z (name_act nm) x509_actions (2 ^ 18) 0 (mkest 98 [] (ava_levels 4 a2 set) [19] 1) (Z.lor p b) ;;
        let '(s, c) := r in
        match e_lv s with
        | _ :: (l :: rest) =>
            s <- write_out (2 ^ 18) 2 (mkest (e_pc s) (e_main s) (l :: rest) (e_js s) (e_flags s)) ;;
            Go (inl (s, c))
        | _ => Fin EBADMSG
        end : out (est * Z + list Z * Z)).
      { cbv - [call_enc write_out name_act Z.pow a1 a2 tlv app].
        destruct (call_enc Z _ _ _ _ _ _) as [[? ?]|?|]; try reflexivity.
        destruct e as [pc0 mn0 lv0 js0 fl0]; lazy beta iota. destruct lv0 as [|? [|? ?]]; try reflexivity.
        lazy beta iota.
        match goal with |- context [write_out ?a ?b ?c] => destruct (write_out a b c) end; reflexivity. }
      assert (Ca : call_enc Z (name_act nm) x509_actions (2 ^ 18) 0 (mkest 98 [] (ava_levels 4 a2 set) [19] 1) (Z.lor p b) =
        Go (mkest 98 [] (ava_levels 4 a2 set) [19] cf, Z.lor p b)).
      { unfold call_enc, ava_levels. cbn [e_lv e_flags e_pc e_main e_js]. unfold name_act. cbn [Z.eqb].
        unfold name_unprocessed. change (llen []) with 0.
        change ((0 <=? 0) && (0 <? x509_actions)) with true. cbn [app]. unfold cf.
        destruct (existsb (todo (Z.lor p b)) (segments nm)); reflexivity. }
      rewrite Ca. cbn [bind ava_levels e_lv e_pc e_main e_js e_flags].
      rewrite write_below; [|unfold a2; rewrite llen_app; pose proof (tlv_some 6 od); unfold a1, llen in *; lia
                            |rewrite llen_app; lia|lia].
      cbn [bind]. unfold cf. destruct (existsb _ _); reflexivity. }
  (* 100 *)
  fold (attribute 4 (b, o, v)).
  change (tlv 48 a2) with (attribute 4 (b, o, v)) in *.
  assert (La : llen (set ++ attribute 4 (b, o, v)) <= 4304) by (rewrite llen_app; lia).
  unfold cf. rewrite Ex. destruct rest as [|r0 rest]; cbn [negb].
  - apply prod_step; [reflexivity|].
    transitivity (s <- write_out (2 ^ 18) 2 (mkest 100 [] [(Some (set ++ attribute 4 (b, o, v)), 49);
        (Some [], 48); (Some [], 48); (Some [], 48)] [19] 1) ;; Go (inl (s, Z.lor p b)) : out (est * Z + list Z * Z)).
    { cbv - [write_out Z.pow attribute app Z.lor]. match goal with |- context [write_out ?a ?b ?c] => destruct (write_out a b c) end; reflexivity. }
    rewrite write_below; [reflexivity| | |lia].
    + rewrite llen_app. pose proof (tlv_some SEQ (tlv OID (oid_bytes o) ++ tlv 4 v)) as K.
      unfold attribute. cbn [fst snd]. unfold llen in *. lia.
    + cbn [app]. pose proof (tlv_small 49 (set ++ attribute 4 (b, o, v))). lia.
  - apply prod_step; [reflexivity|]. cbv - [attribute app Z.lor]. reflexivity.
Qed.

Lemma name_loop nm : forall rem p b o v t set n,
  (forall s, In s (segments nm) -> llen (snd s) < 256) ->
  filter (todo p) (segments nm) = (b, o, v) :: rem -> 0 <= p ->
  llen set + 320 * Z.of_nat (length rem) <= 4000 ->
  exists q, production Z (name_act nm) 104 (5 * S (length rem) + S n)
    (mkest 91 [] [(Some [], t); (Some set, 49); (Some [], 48); (Some [], 48); (Some [], 48)] [19] 1, p) =
  Go (tlv 48 (tlv 49 (set ++ flat_map (attribute 4) ((b, o, v) :: rem))), q).
Proof.
  induction rem as [|[[b1 o1] v1] rem IH]; intros p b o v t set n Lv F P0 Ls;
    destruct (segments_bits nm) as (ND & Hb & Pb);
    assert (I0 : In (b, o, v) (segments nm))
      by (assert (X : In (b, o, v) (filter (todo p) (segments nm))) by (rewrite F; left; reflexivity);
          apply filter_In in X; apply X);
    pose proof (Lv _ I0) as Lv0; cbn [snd] in Lv0;
    assert (M18 : (2 ^ 18 = 262144 /\ 2 ^ 18 < 2 ^ 24)%Z) by (split; reflexivity).
  - cbn [length] in *. change (5 * 1 + S n)%nat with (5 + S n)%nat.
    rewrite (ava_step nm p b o v [] t set (S n) tt F P0 Lv0 ltac:(lia) eq_refl).
    exists (Z.lor p b). cbn [flat_map]. rewrite app_nil_r.
    pose proof (segment_oid _ _ I0) as Lo. cbn [fst snd] in Lo.
    set (x := set ++ attribute 4 (b, o, v)).
    assert (Lx : llen x <= 4400).
    { unfold x, attribute. rewrite llen_app. cbn [fst snd].
      pose proof (tlv_small OID (oid_bytes o) ltac:(lia)).
      pose proof (tlv_small 4 v ltac:(lia)).
      pose proof (tlv_small SEQ (tlv OID (oid_bytes o) ++ tlv 4 v)) as K.
      rewrite llen_app in K. unfold llen in *; lia. }
    rewrite (prod_step (name_act nm) 104 n _ _
      (mkest 104 [] [(Some [], 48); (Some (tlv 48 (tlv 49 x)), 48); (Some [], 48)] [19] 1) (Z.lor p b));
      [destruct n; reflexivity|reflexivity|].
    transitivity (s <- write_out (2 ^ 18) 2 (mkest 102 [] [(Some (tlv 49 x), 48); (Some [], 48); (Some [], 48)] [19] 1) ;;
        Go (inl (s, Z.lor p b)) : out (est * Z + list Z * Z)).
    { clearbody x. cbv - [write_out Z.pow tlv Z.lor].
      match goal with |- context [write_out ?a ?b ?c] => destruct (write_out a b c) end; reflexivity. }
    pose proof (tlv_small 49 x ltac:(lia)). pose proof (tlv_small 48 (tlv 49 x)).
    rewrite write_below; [reflexivity|apply tlv_some|cbn [app]; lia|lia].
  - destruct (filter_todo_next _ _ _ _ _ _ ND Hb P0 Pb F) as (_ & Fn & _).
    replace (5 * S (length ((b1, o1, v1) :: rem)) + S n)%nat with (5 + (5 * S (length rem) + S n))%nat
      by (cbn [length]; lia).
    assert (Ls' : llen set + 320 + 320 * Z.of_nat (length rem) <= 4000)
      by (cbn [length] in Ls; lia). clear Ls.
    rewrite (ava_step nm p b o v _ t set _ tt F P0 Lv0 ltac:(lia) eq_refl). cbn iota.
    destruct (IH (Z.lor p b) b1 o1 v1 48 (set ++ attribute 4 (b, o, v)) n Lv Fn) as (q & E).
    + apply Z.lor_nonneg. split; [exact P0|]. exact (Pb _ I0).
    + pose proof (segment_oid _ _ I0) as Lo. cbn [fst snd] in Lo.
      rewrite llen_app. unfold attribute. cbn [fst snd].
      pose proof (tlv_small OID (oid_bytes o) ltac:(lia)).
      pose proof (tlv_small 4 v ltac:(lia)).
      pose proof (tlv_small SEQ (tlv OID (oid_bytes o) ++ tlv 4 v)) as K.
      rewrite llen_app in K. unfold llen in *; lia.
    + exists q. rewrite E. cbn [flat_map]. rewrite <- app_assoc. reflexivity.
Qed.

(** every attribute given, once, in the order CN, O, email, C, ST, OU, with
    its type; all in one relative distinguished name; every value carries the
    tag of an OCTET STRING *)
Theorem C101_name : forall nm n, (32 <= n)%nat ->
  (forall s, In s (segments nm) -> llen (snd s) < 256) -> present nm <> [] ->
  exists q, rdns nm n =
    Go (tlv SEQ (tlv 49 (flat_map (attribute OTS) (present nm))), q).
Proof.
  intros nm n Hn Lv NE. unfold rdns.
  assert (T0 : filter (todo 0) (segments nm) = present nm).
  { unfold present. apply filter_ext. intro s. unfold todo, has. rewrite Z.land_0_l. apply andb_true_r. }
  destruct (present nm) as [|[[b o] v] rem] eqn:E; [congruence|].
  assert (Lr : (length rem <= 5)%nat).
  { assert (X : (length (present nm) <= length (segments nm))%nat).
    { unfold present. generalize (segments nm). clear. induction l as [|s l IH]; [apply Nat.le_refl|].
      cbn [filter]. destruct (negb (llen (snd s) =? 0)); cbn [length]; lia. }
    rewrite E in X. cbn [length segments] in X. lia. }
  assert (Hk : exists k, n = S (5 * S (length rem) + S k)) by (exists (n - 7 - 5 * length rem)%nat; lia).
  destruct Hk as (k & ->).
  destruct (name_loop nm rem 0 b o v 0 [] k Lv T0 ltac:(lia)) as (q & H).
  { change (llen []) with 0. lia. }
  exists q. rewrite (prod_step (name_act nm) 104 _ _ _
    (mkest 91 [] [(Some [], 0); (Some [], 49); (Some [], 48); (Some [], 48); (Some [], 48)] [19] 1) 0);
    [exact H|reflexivity|vm_compute; reflexivity].
Qed.
Print Assumptions C101_name.

Definition nm0 : gname :=
  {| n_cn := [65; 66]; n_o := []; n_email := [67]; n_c := [68; 69]; n_st := []; n_ou := [] |}.
Example C101_ex :
  (forall s, In s (segments nm0) -> llen (snd s) < 256) /\ present nm0 <> [] /\
  rdns nm0 32 =
    Go ([48; 40; 49; 38;
         48; 9; 6; 3; 85; 4; 3; 4; 2; 65; 66;
         48; 14; 6; 9; 42; 134; 72; 134; 247; 13; 1; 9; 1; 4; 1; 67;
         48; 9; 6; 3; 85; 4; 6; 4; 2; 68; 69], 13).
Proof.
  split; [|split; [discriminate|vm_compute; reflexivity]].
  intros s H. cbn in H. repeat (destruct H as [<-|H]; [reflexivity|]). destruct H.
Qed.

(** X.520 / RFC 5280 4.1.2.4, appendix A: common, organization, organizational
    unit and state names are DirectoryStrings, country names PrintableStrings,
    e-mail addresses IA5Strings; an OCTET STRING is none of these.  One
    attribute, ever: no name the generator can write has such a value. *)
Definition string_tags : list Z := [12; 19; 20; 22; 28; 30].
Theorem C101_string_type_refuted :
  (forall nm n, (32 <= n)%nat ->
     (forall s, In s (segments nm) -> llen (snd s) < 256) -> present nm <> [] ->
     exists d q f, rdns nm n = Go (d, q) /\ d = enc f /\
       (forall t v, In (t, v) (leaves f) -> ~ In t string_tags)) /\
  exists d q, rdns nm0 32 = Go (d, q).
Proof.
  split; [|eexists; eexists; vm_compute; reflexivity].
  intros nm n Hn Lv NE. destruct (C101_name nm n Hn Lv NE) as (q & E).
  exists (tlv SEQ (tlv 49 (flat_map (attribute OTS) (present nm)))), q.
  exists (Node SEQ [Node 49 (map (fun s => Node SEQ [Leaf OID (oid_bytes (snd (fst s))); Leaf OTS (snd s)]) (present nm))]).
  split; [exact E|]. split.
  - assert (X : flat_map enc (map (fun s => Node SEQ [Leaf OID (oid_bytes (snd (fst s))); Leaf OTS (snd s)]) (present nm)) =
                flat_map (attribute OTS) (present nm)).
    { clear. induction (present nm) as [|s l IH]; [reflexivity|]. cbn [map flat_map]. rewrite IH.
      unfold attribute. cbn [enc flat_map]. rewrite app_nil_r. reflexivity. }
    cbn [enc flat_map] in *. rewrite X, app_nil_r. reflexivity.
  - clear. cbn [leaves flat_map]. rewrite app_nil_r. intros t v.
    induction (present nm) as [|s l IH]; cbn [map flat_map leaves]; [intros []|].
    intro H. apply in_app_or in H. destruct H as [[H|[H|[]]]|H]; [| |exact (IH H)];
      injection H as <- _; cbn; intuition discriminate.
Qed.
Print Assumptions C101_string_type_refuted.

(** X.690 11.6: the elements of a SET OF are in ascending order; here a longer
    second element precedes a shorter third one *)
Fixpoint der_le (a b : list Z) : bool :=
  match a, b with
  | [], _ => true
  | _ :: _, [] => false
  | x :: a, y :: b => (x <? y) || ((x =? y) && der_le a b)
  end.
Fixpoint ascending (l : list (list Z)) : bool :=
  match l with
  | x :: ((y :: _) as r) => der_le x y && ascending r
  | _ => true
  end.
Theorem C101_set_order_refuted :
  exists nm d q, (forall s, In s (segments nm) -> llen (snd s) < 256) /\
    rdns nm 32 = Go (tlv SEQ (tlv 49 (concat d)), q) /\
    d = map (attribute OTS) (present nm) /\ ascending d = false.
Proof.
  exists nm0, (map (attribute OTS) (present nm0)), 13.
  split; [exact (proj1 C101_ex)|]. split; [vm_compute; reflexivity|].
  split; [reflexivity|vm_compute; reflexivity].
Qed.
Print Assumptions C101_set_order_refuted.

(** a directory name in a subject alternative name: only the first attribute
    is written, and its value has tag 0 *)
Theorem C101_san_refuted :
  exists nm, present nm = [(1, OID_commonName, [65; 66]); (4, OID_email_address, [67]);
                           (8, OID_countryName, [68; 69])] /\
  ber_encoder Z (san_name_act nm) x509_san_actions x509_san_machine 1000 40 0 =
    Go (inr (tlv SEQ (tlv 164 (tlv SEQ (tlv 49 (attribute 0 (1, OID_commonName, [65; 66]))))), 1)).
Proof. exists nm0. split; vm_compute; reflexivity. Qed.
Print Assumptions C101_san_refuted.

(** ** C102: extensions *)

Definition g0 : gctx :=
  {| g_eku := 0; g_pathlen := 0; g_usage := 0; g_skid := [1; 2; 3];
     g_eku_done := 0; g_pathlen_done := 0; g_usage_done := 0; g_skid_done := false |}.
Definition with_ca (crit : bool) (p : Z) : gctx :=
  {| g_eku := 0; g_pathlen := p + (if crit then 128 else 0); g_usage := 0; g_skid := [1; 2; 3];
     g_eku_done := 0; g_pathlen_done := 0; g_usage_done := 0; g_skid_done := false |}.
Definition with_usage (u : Z) : gctx :=
  {| g_eku := 0; g_pathlen := 0; g_usage := u; g_skid := [1; 2; 3];
     g_eku_done := 0; g_pathlen_done := 0; g_usage_done := 0; g_skid_done := false |}.
Definition with_eku (e : Z) : gctx :=
  {| g_eku := e; g_pathlen := 0; g_usage := 0; g_skid := [1; 2; 3];
     g_eku_done := 0; g_pathlen_done := 0; g_usage_done := 0; g_skid_done := false |}.

(** Extension ::= SEQUENCE { OID, critical BOOLEAN, OCTET STRING } *)
Definition extension (o : Z) (crit : option Z) (v : list Z) : list Z :=
  tlv SEQ (tlv OID (oid_bytes o) ++
           match crit with Some b => tlv BOOL [b] | None => [] end ++ tlv OTS v).
Definition ext_field (l : list (list Z)) : list Z := tlv 163 (tlv SEQ (concat l)).
Definition skid_ext : list Z := extension OID_subjectKeyIdentifier None (tlv OTS [1; 2; 3]).

Fixpoint zl_eqb (a b : list Z) : bool :=
  match a, b with
  | [], [] => true
  | x :: a, y :: b => (x =? y) && zl_eqb a b
  | _, _ => false
  end.
Lemma zl_eqb_eq a b : zl_eqb a b = true -> a = b.
Proof.
  revert b. induction a as [|x a IH]; destruct b as [|y b]; cbn; try discriminate; [reflexivity|].
  intro H. apply andb_true_iff in H. destruct H as [H K]. apply Z.eqb_eq in H. subst.
  rewrite (IH b K). reflexivity.
Qed.

(** basic constraints, for every path length the library can represent: cA
    TRUE, and pathLenConstraint unless it is LC_KEY_CA_MAXLEN *)
Definition basic_value (p : Z) : list Z :=
  tlv SEQ (tlv BOOL [255] ++ if p =? 16 then [] else tlv INT [p]).
Definition wrote (x : out (list Z * gctx)) (d : list Z) : bool :=
  match x with Go (d', _) => zl_eqb d' d | _ => false end.
Lemma wrote_eq x d : wrote x d = true -> exists g, x = Go (d, g).
Proof.
  destruct x as [[d' g]|r|]; cbn; try discriminate. intro H. apply zl_eqb_eq in H. subst.
  exists g. reflexivity.
Qed.
Lemma basic_all : forallb (fun c => forallb (fun k =>
  wrote (extensions 16 (with_ca c (Z.of_nat k)))
    (ext_field [extension OID_basicConstraints (Some (if c : bool then 255 else 0)) (basic_value (Z.of_nat k)); skid_ext]))
  (seq 1 127)) [true; false] = true.
Proof. vm_compute. reflexivity. Qed.

Theorem C102_basic : forall crit p, 1 <= p <= 127 ->
  exists g, extensions 16 (with_ca crit p) =
    Go (ext_field [extension OID_basicConstraints (Some (if crit then 255 else 0)) (basic_value p);
                   skid_ext], g).
Proof.
  intros crit p Hp. apply wrote_eq. pose proof basic_all as A. rewrite forallb_forall in A.
  specialize (A crit ltac:(destruct crit; cbn; tauto)). rewrite forallb_forall in A.
  specialize (A (Z.to_nat p) ltac:(apply in_seq; lia)). rewrite Z2Nat.id in A by lia. exact A.
Qed.
Print Assumptions C102_basic.

(** and the parser gets the same path length back, up to LC_KEY_CA_MAXLEN *)
Theorem C102_basic_roundtrip : forall p x, 1 <= p <= 16 ->
  exists calls, (forall n, (5 <= n)%nat ->
    decode x509_basic_constraints_machine x509_basic_constraints_actions (basic_value p) n = Some (0, calls)) /\
  exists x', fold_left (fun r (e : Z * Z * list Z) => then_ r (fun x =>
      (if fst (fst e) =? 0 then basic_constraints_ca else basic_constraints_pathlen) x (snd e)))
    calls (0, x) = (0, x') /\ Z.land (pk_pathlen (x_pub x')) 127 = p.
Proof.
  intros p x Hp.
  exists ((0, BOOL, [255]) :: if p =? 16 then [] else [(1, INT, [p])]). split.
  - intros n Hn. unfold basic_value.
    pose proof (C92_basic_constraints (Some [255]) (if p =? 16 then None else Some [p]) n Hn) as K.
    cbn zeta in K. destruct (p =? 16); (apply K; vm_compute; discriminate).
  - assert (C : p = 1 \/ p = 2 \/ p = 3 \/ p = 4 \/ p = 5 \/ p = 6 \/ p = 7 \/ p = 8 \/ p = 9 \/ p = 10 \/
               p = 11 \/ p = 12 \/ p = 13 \/ p = 14 \/ p = 15 \/ p = 16) by lia.
    repeat (destruct C as [->|C]; [eexists; split; reflexivity|]). subst p.
    eexists. split; reflexivity.
Qed.
Print Assumptions C102_basic_roundtrip.

(** key usage, every combination of the first eight usages: what is written,
    and what the parser makes of it on a little-endian host *)
Definition x0 : xctx := {| x_crit := true; x_pub := {| pk_key := []; pk_algo := 0; pk_usage := 0; pk_eku := 0; pk_pathlen := 0 |} |}.
Definition crit_bit (c : bool) : Z := if c then 16384 else 0.
Lemma usage_all : forallb (fun c : bool => forallb (fun k : nat => let l := Z.of_nat k in
  wrote (extensions 16 (with_usage (l + crit_bit c)))
    (ext_field [extension OID_keyUsage (Some (if c then 255 else 0)) (tlv BTS [0; l]); skid_ext]) &&
  (Z.land (pk_usage (x_pub (snd (keyusage x0 [0; l])))) USAGE_MASK =? l)) (seq 1 255)) [true; false] = true.
Proof. vm_compute. reflexivity. Qed.
Theorem C102_keyusage : forall (crit : bool) l, 1 <= l < 256 ->
  (exists g, extensions 16 (with_usage (l + crit_bit crit)) =
    Go (ext_field [extension OID_keyUsage (Some (if crit then 255 else 0)) (tlv BTS [0; l]);
                   skid_ext], g)) /\
  Z.land (pk_usage (x_pub (snd (keyusage x0 [0; l])))) USAGE_MASK = l.
Proof.
  intros crit p Hp. pose proof usage_all as A. rewrite forallb_forall in A.
  specialize (A crit ltac:(destruct crit; cbn; tauto)). rewrite forallb_forall in A.
  specialize (A (Z.to_nat p) ltac:(apply in_seq; lia)). cbn zeta in A. rewrite Z2Nat.id in A by lia.
  apply andb_true_iff in A. destruct A as [A B]. split; [apply wrote_eq; exact A|].
  apply Z.eqb_eq. exact B.
Qed.
Print Assumptions C102_keyusage.

(** RFC 5280 4.2.1.12 and 4.2: one extKeyUsage extension holds all purposes
    and no extension occurs twice.  Here two purposes make two extensions. *)
Theorem C102_duplicate_refuted :
  exists e g, extensions 32 (with_eku e) =
    Go (ext_field [extension OID_extKeyUsage (Some 0) (tlv SEQ (tlv OID (oid_bytes OID_id_kp_serverAuth)));
                   extension OID_extKeyUsage (Some 0) (tlv SEQ (tlv OID (oid_bytes OID_id_kp_clientAuth)));
                   skid_ext], g).
Proof. exists (16 + 32). eexists. vm_compute. reflexivity. Qed.
Print Assumptions C102_duplicate_refuted.

(** the flag the parser sets for "extension present" is taken for a purpose:
    a parsed key with any extended key usage cannot be written again *)
Theorem C102_eku_present_refuted :
  exists e, has e 4 = true /\ has e 16 = true /\ extensions 32 (with_eku e) = Fin (-22).
Proof. exists (16 + 4). vm_compute. repeat split; reflexivity. Qed.
Print Assumptions C102_eku_present_refuted.

(** X.690 11.5: a component equal to its default is absent; critical FALSE is
    written out.  11.2.2: trailing zero bits of a named bit list are removed;
    they are not.  8.6.2.2: at most seven unused bits; decipherOnly makes the
    count 128. *)
Definition der_bits (v : list Z) : bool :=
  match v with
  | [u; b] => (0 <=? u) && (u <=? 7) && (b mod 2 ^ u =? 0) && negb (b mod 2 ^ (u + 1) =? 0)
  | _ => false
  end.
Theorem C102_der_refuted :
  (exists u g v, extensions 16 (with_usage u) =
     Go (ext_field [extension OID_keyUsage (Some 0) (tlv BTS v); skid_ext], g) /\
     der_bits v = false /\ nth 0 v 0 <= 7) /\
  (exists u g v, extensions 16 (with_usage u) =
     Go (ext_field [extension OID_keyUsage (Some 0) (tlv BTS v); skid_ext], g) /\
     7 < nth 0 v 0).
Proof.
  split.
  - exists 4. eexists. exists [0; 4]. split; [vm_compute; reflexivity|]. split; [reflexivity|].
    vm_compute. discriminate.
  - exists 32768. eexists. exists [128; 0]. split; vm_compute; reflexivity.
Qed.
Print Assumptions C102_der_refuted.

(** RFC 5280 4.2.1.9: a path length of 0 is meaningful; the generator's
    representation has no such CA *)
Theorem C102_pathlen_zero_refuted :
  exists g, extensions 16 (with_ca true 0) = Go (ext_field [skid_ext], g).
Proof. eexists. vm_compute. reflexivity. Qed.
Print Assumptions C102_pathlen_zero_refuted.
