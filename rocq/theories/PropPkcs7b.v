(** * Properties C80, C82, continued: which certificate signed, which issuer is followed *)
From Coq Require Import ZArith List Lia Bool.
Import ListNotations.
From Verif Require Import Bytes X509Model Pkcs7Model PropPkcs7.
Open Scope Z_scope.

(** the algorithm of the certificate key, by family: 1 ML-DSA, 2 ML-DSA with
    Ed25519, 3 SLH-DSA fast, 4 SLH-DSA small *)
Definition family (a : Z) : option Z :=
  if (1 <=? a) && (a <=? 3) then Some 1
  else if (4 <=? a) && (a <=? 6) then Some 2
  else if (a =? 9) || (a =? 11) || (a =? 13) then Some 3
  else if (a =? 8) || (a =? 10) || (a =? 12) then Some 4
  else None.
Lemma dispatch : forall av ch pk s, 0 <= s_algo s -> 0 <= verify_signature av ch pk s ->
  exists sg k, s_s s = Some sg /\ (s_algo s = 0 \/ s_algo s = pk_algo pk) /\
    (forall h, s_hash s = Some h -> 0 <= ch (pk_algo pk) h) /\ family (pk_algo pk) = Some k /\ 0 <= av k pk s.
Proof.
  intros av ch pk s S V. unfold verify_signature in V. destruct (s_s s) as [sg|]; [|unfold EFAULT in V; lia].
  exists sg. destruct ((SIG_UNKNOWN <? s_algo s) && negb (pk_algo pk =? s_algo s)) eqn:M; [unfold EKEYREJECTED in V; lia|].
  assert (A : s_algo s = 0 \/ s_algo s = pk_algo pk).
  { unfold SIG_UNKNOWN in M. destruct (Z.ltb_spec 0 (s_algo s)); [|left; lia]. destruct (Z.eqb_spec (pk_algo pk) (s_algo s)); [right; lia|discriminate]. }
  destruct (match s_hash s with Some h => ch (pk_algo pk) h | None => 0 end <? 0) eqn:CK; [apply Z.ltb_lt in CK; lia|].
  apply Z.ltb_ge in CK.
  assert (HH : forall h, s_hash s = Some h -> 0 <= ch (pk_algo pk) h).
  { intros h E. rewrite E in CK. exact CK. }
  unfold SIG_DILITHIUM_44, SIG_DILITHIUM_65, SIG_DILITHIUM_87, SIG_DILITHIUM_44_ED25519, SIG_DILITHIUM_65_ED25519,
    SIG_DILITHIUM_87_ED25519, SIG_SPHINCS_128F, SIG_SPHINCS_192F, SIG_SPHINCS_256F, SIG_SPHINCS_128S, SIG_SPHINCS_192S,
    SIG_SPHINCS_256S in V. unfold family.
  repeat match type of V with context [pk_algo pk =? ?n] => destruct (Z.eqb_spec (pk_algo pk) n) as [E|]; cbn [orb] in V;
    [rewrite E in *; eexists; repeat (split; [solve [auto | reflexivity]|]); exact V|] end.
  unfold ENOPKG in V. lia.
Qed.

Section S.
  Variable av : Z -> pubkey -> sigdata -> Z.
  Variable ch : Z -> Z -> Z.
  Variable hash : Z -> list Z -> list Z.
  Variable clock : nat -> Z * Z.
  Variable H : nat -> cert.

  Lemma digest_keeps : forall data s r s', pkcs7_digest hash data s = (r, s') ->
    si_has_time s' = si_has_time s /\ si_time s' = si_time s /\ s_auth0 (si_sig s') = s_auth0 (si_sig s) /\
    s_algo (si_sig s') = s_algo (si_sig s) /\ s_s (si_sig s') = s_s (si_sig s).
  Proof using .
    intros data s r s' E. unfold pkcs7_digest in E.
    repeat match type of E with
    | context [match ?b with _ => _ end] => destruct b
    | context [if ?b then _ else _] => destruct b
    end; injection E as _ <-; repeat split.
  Qed.
  Lemma one_inv : forall certs data trust rl s st s' st',
    verify_one av ch hash clock H certs data trust rl s st = Some (0, s', st') ->
    exists g, s' = snd (pkcs7_digest hash data s) /\ 0 <= fst (pkcs7_digest hash data s) /\ find_key H certs s' = Some g /\
      (si_has_time s' && ((si_time s' <? c_from (H g)) || (c_to (H g) <? si_time s'))) = false /\
      (forall ku eku, rl = Some (ku, eku) -> match_key_usage (Some (H g)) ku = POL_TRUE /\ match_eku (Some (H g)) eku = POL_TRUE) /\
      0 <= verify_signature av ch (c_pub (H g)) (si_sig s') /\
      verify_sig_chain av ch clock H certs trust (Some g) g st = Some (0, st').
  Proof using av ch hash clock H.
    intros certs data trust rl s st s' st' E. unfold verify_one in E.
    destruct (pkcs7_digest hash data s) as [r s1] eqn:PD. cbn [fst snd].
    destruct (Z.ltb_spec r 0) as [L|L]; [apply inv3 in E; lia|].
    destruct (find_key H certs s1) as [g|] eqn:FK; [|discriminate].
    destruct (si_has_time s1 && _) eqn:TM in E; [discriminate|].
    exists g.
    destruct rl as [[ku eku]|]; cbn iota zeta beta in E.
    - destruct (match_key_usage (Some (H g)) ku <? 0) eqn:A; [apply Z.ltb_lt in A; apply inv3 in E; lia|].
      destruct (Z.eqb_spec (match_key_usage (Some (H g)) ku) POL_TRUE) as [M1|]; cbn [negb] in E; [|discriminate].
      destruct (match_eku (Some (H g)) eku <? 0) eqn:B; [apply Z.ltb_lt in B; apply inv3 in E; lia|].
      destruct (Z.eqb_spec (match_eku (Some (H g)) eku) POL_TRUE) as [M2|]; cbn [negb] in E; [|discriminate].
      destruct (verify_signature av ch (c_pub (H g)) (si_sig s1) <? 0) eqn:V; [apply Z.ltb_lt in V; apply inv3 in E; lia|].
      apply Z.ltb_ge in V.
      destruct (verify_sig_chain _ _ _ _ _ _ _ _ _) as [[r' s'']|] eqn:VC in E; [|discriminate]. injection E as -> <- <-.
      repeat (split; [solve [auto]|]). split; [|auto]. intros k e X. injection X as <- <-. auto.
    - change (POL_TRUE <? 0) with false in E. change (negb (POL_TRUE =? POL_TRUE)) with false in E. cbn iota in E.
      destruct (verify_signature av ch (c_pub (H g)) (si_sig s1) <? 0) eqn:V; [apply Z.ltb_lt in V; apply inv3 in E; lia|].
      apply Z.ltb_ge in V.
      destruct (verify_sig_chain _ _ _ _ _ _ _ _ _) as [[r' s'']|] eqn:VC in E; [|discriminate]. injection E as -> <- <-.
      repeat (split; [solve [auto]|]). split; [discriminate|auto].
  Qed.
End S.

(** an identifier field matches a wanted identifier: its buffer begins with
    the wanted bytes (see C78 for why not more) *)
Definition names (have want : kid) : Prop := firstn (Z.to_nat (k_len want)) (k_data have) = kid_val want.
Lemma same_names : forall a b, wf_kid a -> wf_kid b -> id_same a b = true -> names a b.
Proof. intros a b A B E. destruct (C78_same_partial a b A B) as [(X&_) _]. exact (X E). Qed.
Definition wf_cert (c : cert) : Prop :=
  wf_kid (c_id c) /\ wf_kid (c_skid c) /\ wf_kid (s_auth0 (c_sig c)) /\ wf_kid (s_auth1 (c_sig c)).
Definition all_bits (req have : Z) : Prop := forall i, 0 <= i < 16 -> Z.testbit req i = true -> Z.testbit have i = true.

Lemma usage_all : forall c r, match_key_usage (Some c) r = POL_TRUE -> all_bits r (pk_usage (c_pub c)).
Proof.
  intros c r M i I T. cbn [match_key_usage] in M. destruct (Z.eqb_spec r 0) as [E0|]; [rewrite E0, Z.bits_0 in T; discriminate|].
  destruct (negb _) in M; [discriminate|]. destruct (Z.eqb_spec (Z.land (Z.land (pk_usage (c_pub c)) (65535 - KU_PRESENT)) r) r) as [E|E]; [|discriminate].
  rewrite <- E in T. rewrite !Z.land_spec in T. apply andb_prop in T. destruct T as [T _]. apply andb_prop in T. tauto.
Qed.
Lemma eku_all : forall c r, match_eku (Some c) r = POL_TRUE -> all_bits r (pk_eku (c_pub c)).
Proof.
  intros c r M i I T. cbn [match_eku] in M. destruct (Z.eqb_spec r 0) as [E0|]; [rewrite E0, Z.bits_0 in T; discriminate|].
  destruct (negb _) in M; [discriminate|]. destruct (Z.eqb_spec (Z.land (Z.land (pk_eku (c_pub c)) (65535 - EKU_PRESENT)) r) r) as [E|E]; [|discriminate].
  rewrite <- E in T. rewrite !Z.land_spec in T. apply andb_prop in T. destruct T as [T _]. apply andb_prop in T. tauto.
Qed.

(** When a message is accepted, one of its signer infos was accepted because
    of a certificate of the message that its identifier names; the signing
    time, when there is one, lies in the validity period of that certificate;
    the certificate carries every key usage and every extended key usage the
    caller asked for; the signature was made with the algorithm of its key,
    which is one of the supported ones, over the digest of an algorithm not
    refused for that key. *)
Theorem C80_signer : forall av ch hash clock H certs ok data anchors rl l st l' st',
  (forall n, wf_cert (H n)) -> Forall (fun s => wf_kid (s_auth0 (si_sig s)) /\ 0 <= s_algo (si_sig s)) l ->
  lc_pkcs7_verify av ch hash clock H certs ok data anchors rl l st = Some (0, l', st') ->
  exists s g d sg k, In s l /\ In g certs /\ data = Some d /\
    (names (c_id (H g)) (s_auth0 (si_sig s)) \/ names (c_skid (H g)) (s_auth0 (si_sig s))) /\
    (si_has_time s = true -> c_from (H g) <= si_time s <= c_to (H g)) /\
    (forall ku eku, rl = Some (ku, eku) -> all_bits ku (pk_usage (c_pub (H g))) /\ all_bits eku (pk_eku (c_pub (H g)))) /\
    s_s (si_sig s) = Some sg /\ (s_algo (si_sig s) = 0 \/ s_algo (si_sig s) = pk_algo (c_pub (H g))) /\
    family (pk_algo (c_pub (H g))) = Some k /\
    0 <= av k (c_pub (H g)) (si_sig (snd (pkcs7_digest hash d s))) /\
    (forall h, s_hash (si_sig (snd (pkcs7_digest hash d s))) = Some h -> 0 <= ch (pk_algo (c_pub (H g))) h).
Proof.
  intros av ch hash clock H certs ok data anchors rl l st l' st' WF WL E. unfold lc_pkcs7_verify in E.
  destruct ok; cbn [negb] in E; [|discriminate]. destruct data as [d|]; [|discriminate].
  assert (X : exists s st1 s' st2, In s l /\ verify_one av ch hash clock H certs d anchors rl s st1 = Some (0, s', st2)).
  { clear WL. assert (N : ENOKEY <> 0) by discriminate. revert E N. generalize ENOKEY at 1 2 as cached. revert st l' st'.
    induction l as [|s l IH]; intros st l' st' cached E N; cbn [verify_all] in E.
    { injection E as E _ _. congruence. }
    destruct (verify_one av ch hash clock H certs d anchors rl s st) as [[[r s'] st1]|] eqn:V; [|discriminate].
    destruct (Z.eqb_spec r ENOKEY) as [R1|R1].
    { destruct (verify_all _ _ _ _ _ _ _ _ _ l cached st1) as [[[r2 l2] st2]|] eqn:A in E; [|discriminate].
      injection E as -> _ _. destruct (IH _ _ _ _ A N) as (a&b&c&e&I&W). exists a, b, c, e. split; [right; exact I|exact W]. }
    destruct (Z.eqb_spec r ENOPKG) as [R2|R2].
    { destruct (verify_all _ _ _ _ _ _ _ _ _ l _ st1) as [[[r2 l2] st2]|] eqn:A in E; [|discriminate].
      injection E as -> _ _. destruct (IH _ _ _ _ A) as (a&b&c&e&I&W).
      { destruct (cached =? ENOKEY); [discriminate|exact N]. }
      exists a, b, c, e. split; [right; exact I|exact W]. }
    destruct (Z.eqb_spec r 0) as [->|R3].
    { exists s, st, s', st1. split; [left; reflexivity|exact V]. }
    injection E as E _ _. congruence. }
  destruct X as (s&st1&s'&st2&I&V). destruct (one_inv _ _ _ _ _ _ _ _ _ _ _ _ _ V) as (g&S'&D0&FK&TM&RL&VS&_).
  rewrite Forall_forall in WL. destruct (WL s I) as [W1 W2].
  destruct (digest_keeps hash d s (fst (pkcs7_digest hash d s)) s') as (K1&K2&K3&K4&K5); [subst s'; apply surjective_pairing|].
  unfold find_key in FK. apply find_some in FK. destruct FK as [G FK]. rewrite K3 in FK. rewrite K1, K2 in TM.
  destruct (dispatch av ch (c_pub (H g)) (si_sig s')) as (sg&k&P1&P2&P3&P4&P5); [lia|exact VS|].
  rewrite K5 in P1. rewrite K4 in P2. subst s'.
  exists s, g, d, sg, k. split; [exact I|]. split; [exact G|]. split; [reflexivity|]. split.
  { destruct (WF g) as (Q1&Q2&_). apply orb_prop in FK. destruct FK as [FK|FK]; [left|right].
    - apply (same_names _ _ Q1 W1) in FK. exact FK.
    - apply (same_names _ _ Q2 W1) in FK. exact FK. }
  split. { intros T. rewrite T in TM. cbn [andb] in TM. apply orb_false_elim in TM. destruct TM as [T1 T2].
    apply Z.ltb_ge in T1. apply Z.ltb_ge in T2. lia. }
  split. { intros ku eku R. destruct (RL _ _ R) as [R1 R2]. split; [apply usage_all|apply eku_all]; assumption. }
  auto 10.
Qed.
Print Assumptions C80_signer.
Example C80_signer_ex : exists l' st',
  lc_pkcs7_verify toy_verify toy_check toy_hash no_clock H_good [2%nat; 1%nat] true (Some [1; 2; 3]) (Some [0%nat])
    (Some (128, 0)) [mksinfo (H_good 2) 102 [1; 2; 3]] st0 = Some (0, l', st') /\ (forall n, wf_cert (H_good n)).
Proof.
  eexists. eexists. split; [vm_compute; reflexivity|].
  assert (B : forall k, length (k_data k) = 192%nat -> (0 <=? k_len k) && (k_len k <=? 192) = true ->
     forallb (fun b => (0 <=? b) && (b <? 256)) (k_data k) = true -> wf_kid k).
  { intros k L R F. split; [lia|]. split; [exact L|]. apply Forall_forall. rewrite forallb_forall in F. intros b I. specialize (F b I). unfold byte; lia. }
  intros [|[|n]]; (split; [|split; [|split]]); apply B; vm_compute; reflexivity.
Qed.

(** ** Which issuer is followed *)
(** [p] is an issuer of [x] by name: it matches every identifier of its
    issuer that [x] carries, and [x] carries one. *)
Definition issuer_of (H : nat -> cert) (p x : nat) : Prop :=
  let a0 := s_auth0 (c_sig (H x)) in let a1 := s_auth1 (c_sig (H x)) in
  (k_len a0 <> 0 -> names (c_id (H p)) a0) /\ (k_len a1 <> 0 -> names (c_skid (H p)) a1) /\ (k_len a0 <> 0 \/ k_len a1 <> 0).
(** the anchor stands for the certificate [p] of the message *)
Definition stands_for (H : nat -> cert) (t p : nat) : Prop :=
  (k_len (c_id (H p)) <> 0 -> names (c_id (H t)) (c_id (H p))) /\ (k_len (c_skid (H p)) <> 0 -> names (c_skid (H t)) (c_skid (H p))).
Inductive named_path (H : nat -> cert) (R : nat -> nat -> Prop) (chain anchors : list nat) : nat -> Prop :=
| np_anchor : forall x t, In t anchors -> issuer_of H t x -> R t x -> named_path H R chain anchors x
| np_root : forall x p t, In p chain -> issuer_of H p x -> In t anchors -> stands_for H t p -> R t x -> named_path H R chain anchors x
| np_issuer : forall x p, In p chain -> issuer_of H p x -> R p x -> named_path H R chain anchors p -> named_path H R chain anchors x.

Lemma find_key_names : forall H, (forall n, wf_cert (H n)) -> forall anchors a0 a1 t, wf_kid a0 -> wf_kid a1 ->
  find_asymmetric_key H (Some anchors) a0 a1 = inr t ->
  (k_len a0 <> 0 -> names (c_id (H t)) a0) /\ (k_len a1 <> 0 -> names (c_skid (H t)) a1) /\ (k_len a0 <> 0 \/ k_len a1 <> 0).
Proof.
  intros H WF anchors a0 a1 t W0 W1 F. unfold find_asymmetric_key in F.
  destruct (Z.eqb_spec (k_len a0) 0) as [A0|A0]; cbn [negb] in F; destruct (Z.eqb_spec (k_len a1) 0) as [A1|A1]; cbn [negb andb] in F.
  - discriminate.
  - destruct (find _ anchors) eqn:E; [|discriminate]. apply find_some in E. injection F as <-. destruct E as [_ E].
    apply andb_prop in E. destruct E as [_ E]. apply (same_names _ _ (proj1 (proj2 (WF _))) W1) in E. split; [lia|]. split; auto.
  - destruct (find _ anchors) eqn:E; [|discriminate]. apply find_some in E. injection F as <-. destruct E as [_ E].
    apply (same_names _ _ (proj1 (WF _)) W0) in E. split; [auto|]. split; [lia|auto].
  - destruct (find _ anchors) eqn:E; [|discriminate]. apply find_some in E. destruct E as [_ E].
    destruct (id_same (c_skid (H n)) a1) eqn:S; cbn [negb] in F; [|discriminate]. injection F as <-.
    apply (same_names _ _ (proj1 (WF _)) W0) in E. apply (same_names _ _ (proj1 (proj2 (WF _))) W1) in S. auto.
Qed.
Lemma find_issuer_names : forall H, (forall n, wf_cert (H n)) -> forall chain a0 a1 p chk, wf_kid a0 -> wf_kid a1 ->
  find_issuer H chain a0 a1 = Some (p, chk) -> chk && negb (k_len a1 =? 0) && negb (id_same (c_skid (H p)) a1) = false ->
  (k_len a0 <> 0 -> names (c_id (H p)) a0) /\ (k_len a1 <> 0 -> names (c_skid (H p)) a1) /\ (k_len a0 <> 0 \/ k_len a1 <> 0).
Proof.
  intros H WF chain a0 a1 p chk W0 W1 F C. unfold find_issuer in F.
  destruct (Z.eqb_spec (k_len a0) 0) as [A0|A0]; cbn [negb] in F; destruct (Z.eqb_spec (k_len a1) 0) as [A1|A1]; cbn [negb andb] in F.
  - discriminate.
  - destruct (find _ chain) eqn:E; [|discriminate]. apply find_some in E. injection F as <- <-. destruct E as [_ E].
    apply andb_prop in E. destruct E as [_ E]. apply (same_names _ _ (proj1 (proj2 (WF _))) W1) in E. split; [lia|]. split; auto.
  - destruct (find _ chain) eqn:E; [|discriminate]. apply find_some in E. injection F as <- <-. destruct E as [_ E].
    apply (same_names _ _ (proj1 (WF _)) W0) in E. split; [auto|]. split; [lia|auto].
  - destruct (find _ chain) eqn:E; [|discriminate]. apply find_some in E. destruct E as [_ E]. injection F as <- <-.
    destruct (id_same (c_skid (H n)) a1) eqn:S; [|discriminate].
    apply (same_names _ _ (proj1 (WF _)) W0) in E. apply (same_names _ _ (proj1 (proj2 (WF _))) W1) in S. auto.
Qed.
Lemma loop_named : forall av ch clock H, (forall n, wf_cert (H n)) -> forall chain anchors start fuel i x st st',
  chain_loop av ch clock H chain (Some anchors) start fuel i x st = Some (0, st') ->
  is_root_ca (Some (H x)) = POL_TRUE \/ named_path H (checked av ch clock H) chain anchors x.
Proof.
  intros av ch clock H WF chain anchors start. induction fuel as [|fuel IH]; intros i x st st' E; [discriminate|]. cbn [chain_loop] in E.
  destruct (v_black _ x) in E.
  { destruct start; [|discriminate]. destruct (mark_black _ _ _ _) in E; discriminate. }
  cbv zeta in E. destruct (is_root_ca (Some (H x)) <? 0) eqn:R0.
  { apply Z.ltb_lt in R0. apply inv2 in E. lia. }
  destruct (Z.eqb_spec (is_root_ca (Some (H x))) POL_TRUE) as [RT|RT]; [left; exact RT|]. right.
  assert (SIG : forall t i, 0 <= cert_verify av ch (clock i) (c_pub (H t)) (H x) -> checked av ch clock H t x).
  { intros t j V. exists j. exact V. }
  assert (ERR : forall v s s', Some (err_or v 0, s) = Some (0, s' : vstate) -> 0 <= v).
  { intros v s s' X. unfold err_or in X. destruct (Z.ltb_spec v 0); [injection X as X _; lia|lia]. }
  destruct (WF x) as (_&_&W0&W1).
  destruct (find_issuer H chain (s_auth0 (c_sig (H x))) (s_auth1 (c_sig (H x)))) as [[p chk]|] eqn:FI.
  - destruct (chk && negb (k_len (s_auth1 (c_sig (H x))) =? 0) && negb (id_same (c_skid (H p)) (s_auth1 (c_sig (H x))))) eqn:CH; [discriminate|].
    pose proof (find_issuer_names H WF _ _ _ _ _ W0 W1 FI CH) as IS.
    apply find_issuer_in in FI. destruct (v_seen _ p) in E; [discriminate|].
    destruct (match_key_usage (Some (H p)) KU_KEYCERTSIGN <? 0) eqn:MU.
    { apply Z.ltb_lt in MU. apply inv2 in E. lia. }
    destruct (Z.eqb_spec (match_key_usage (Some (H p)) KU_KEYCERTSIGN) POL_TRUE) as [MT|MT]; cbn [negb] in E; [|discriminate].
    destruct (is_root_ca (Some (H p)) <? 0) eqn:P0.
    { apply Z.ltb_lt in P0. apply inv2 in E. lia. }
    destruct (Z.eqb_spec (is_root_ca (Some (H p))) POL_TRUE) as [PT|PT].
    + destruct (find_asymmetric_key H (Some anchors) (c_id (H p)) (c_skid (H p))) as [e|t] eqn:FK.
      * exfalso. unfold find_asymmetric_key in FK.
        assert (e <> 0).
        { repeat match type of FK with
          | context [match ?b with _ => _ end] => destruct b
          | context [if ?b then _ else _] => destruct b
          end; try discriminate FK; injection FK as <-; discriminate. }
        apply inv2 in E. congruence.
      * pose proof (find_key_names H WF _ _ _ _ (proj1 (WF p)) (proj1 (proj2 (WF p))) FK) as SF.
        apply find_key_in in FK. apply ERR in E. eapply np_root with (p := p) (t := t); eauto. split; tauto.
    + destruct (cert_verify av ch (clock i) (c_pub (H p)) (H x) <? 0) eqn:CV.
      { apply Z.ltb_lt in CV. apply inv2 in E. lia. }
      apply Z.ltb_ge in CV. apply IH in E. destruct E as [E|E]; [congruence|].
      eapply np_issuer; eauto.
  - destruct (find_asymmetric_key H (Some anchors) _ _) as [e|t] eqn:FK; [discriminate|].
    pose proof (find_key_names H WF _ _ _ _ W0 W1 FK) as SF.
    apply find_key_in in FK. apply ERR in E. eapply np_anchor; eauto.
Qed.

(** Every step of an accepted path goes to a certificate that matches all
    issuer identifiers of the certificate it certifies; the last one is an
    anchor, or an anchor with the identifiers of the last certificate. *)
Theorem C82_issuer_names : forall av ch hash clock H certs data anchors rl s st s' st',
  (forall n, wf_cert (H n)) ->
  verify_one av ch hash clock H certs data (Some anchors) rl s st = Some (0, s', st') ->
  exists g, In g certs /\ (is_root_ca (Some (H g)) = POL_TRUE \/
    named_path H (fun t x => exists i, 0 <= cert_verify av ch (clock i) (c_pub (H t)) (H x)) certs anchors g).
Proof.
  intros av ch hash clock H certs data anchors rl s st s' st' WF V.
  destruct (one_inv _ _ _ _ _ _ _ _ _ _ _ _ _ V) as (g&_&_&FK&_&_&_&VC).
  apply find_some in FK. exists g. split; [tauto|]. unfold verify_sig_chain in VC. eapply loop_named; eauto.
Qed.
Print Assumptions C82_issuer_names.
(** an issuer with the right name and another key identifier is refused *)
Definition H_ids (skid : list Z) (n : nat) : cert :=
  match n with
  | 2%nat => let c := mkcert 102 101 102 [12] [11] 0 8320 false in
             {| c_pub := c_pub c;
                c_sig := {| s_s := Some [101; 102]; s_digest := []; s_hash := None; s_algo := SIG_DILITHIUM_65;
                            s_raw := Some [102]; s_auth0 := mkid [101; 77]; s_auth1 := mkid [11] |};
                c_id := c_id c; c_skid := c_skid c; c_from := 1000; c_to := 2000; c_raw_issuer := c_raw_issuer c;
                c_raw_subject := c_raw_subject c; c_san_dns := None; c_san_ip := None; c_raw_skid := c_raw_skid c;
                c_raw_akid := c_raw_akid c; c_version := 3; c_self_signed := false; c_unsupported := false |}
  | 1%nat => mkcert 101 100 101 skid [10] ca_unlimited usage_sign false
  | _ => H_good n
  end.
Example C82_issuer_names_ex : exists s' st',
  verify_one toy_verify toy_check toy_hash no_clock (H_ids [11]) [2%nat; 1%nat] [1; 2; 3] (Some [0%nat])
    None (mksinfo (H_ids [11] 2) 102 [1; 2; 3]) st0 = Some (0, s', st') /\
  exists s'' st'', verify_one toy_verify toy_check toy_hash no_clock (H_ids [99]) [2%nat; 1%nat] [1; 2; 3] (Some [0%nat])
    None (mksinfo (H_ids [99] 2) 102 [1; 2; 3]) st0 = Some (EKEYREJECTED, s'', st'').
Proof. eexists. eexists. split; [vm_compute; reflexivity|]. eexists. eexists. vm_compute. reflexivity. Qed.
