(** * Properties C78-C84: key identifiers, self-signed certificates, PKCS#7
      trust decisions *)
From Coq Require Import ZArith List Lia Bool.
Import ListNotations.
From Verif Require Import Bytes X509Model Pkcs7Model.
From Verif Require UtilModel UtilProof.
Open Scope Z_scope.

(** ** C78: key identifiers *)
(** An identifier is a byte string; a structure holds it in front of a
    192-byte buffer. *)
Definition wf_kid (k : kid) : Prop := 0 <= k_len k <= 192 /\ length (k_data k) = 192%nat /\ bytes (k_data k).

Lemma cmp_eq_iff : forall a b, bytes a -> bytes b -> cmp_eq a b = true <-> a = b.
Proof.
  intros a b A B. unfold cmp_eq. rewrite Z.eqb_eq. apply (UtilProof.memcmp_spec 0 a 0 b A B).
Qed.

(** The identifier built from two parts is their concatenation, or the call
    is refused, exactly when the parts are longer than the buffer. *)
Theorem C78_generate : forall k a b, wf_kid k -> bytes (opt_bytes a) -> bytes (opt_bytes b) ->
  let n := (length (opt_bytes a) + length (opt_bytes b))%nat in
  ((n <= 192)%nat -> exists k', generate_id k a b = (0, k') /\ wf_kid k' /\ kid_val k' = opt_bytes a ++ opt_bytes b) /\
  ((192 < n)%nat -> generate_id k a b = (EOVERFLOW, k)).
Proof.
  intros k a b (K1&K2&K3) A B n. unfold generate_id. fold n. split; intros L.
  - destruct (Nat.ltb_spec KID_DATA n) as [E|E]; [unfold KID_DATA in E; lia|]. eexists. split; [reflexivity|].
    assert (M : Z.of_nat n mod 256 = Z.of_nat n) by (apply Z.mod_small; lia). unfold wf_kid, kid_val. cbn [k_len k_data].
    rewrite M. split.
    + split; [lia|]. split; [rewrite !app_length, skipn_length, K2; unfold n in *; lia|].
      apply bytes_app; [auto|]. apply bytes_app; [auto|]. apply bytes_skipn. auto.
    + rewrite Nat2Z.id. rewrite app_assoc. unfold n. rewrite <- app_length. apply firstn_length_app.
  - destruct (Nat.ltb_spec KID_DATA n) as [E|E]; [reflexivity|unfold KID_DATA in E; lia].
Qed.
Print Assumptions C78_generate.
Example C78_generate_ex : fst (generate_id kid0 (Some [1; 2]) (Some [3])) = 0 /\
  kid_val (snd (generate_id kid0 (Some [1; 2]) (Some [3]))) = [1; 2; 3] /\
  fst (generate_id kid0 (Some (repeat 7 150)) (Some (repeat 7 43))) = EOVERFLOW.
Proof. vm_compute. auto. Qed.

(** Equality of identifiers is decided correctly only when both have the same
    length: the length of the first one is never looked at. *)
Theorem C78_same_partial : forall a b, wf_kid a -> wf_kid b ->
  (id_same a b = true <-> firstn (Z.to_nat (k_len b)) (k_data a) = kid_val b) /\
  (k_len a = k_len b -> (id_same a b = true <-> kid_val a = kid_val b)) /\
  (k_len b <= k_len a -> (id_same a b = true <-> exists rest, kid_val a = kid_val b ++ rest)).
Proof.
  intros a b (A1&A2&A3) (B1&B2&B3). unfold id_same.
  assert (E : cmp_eq (firstn (Z.to_nat (k_len b)) (k_data a)) (firstn (Z.to_nat (k_len b)) (k_data b)) = true <->
              firstn (Z.to_nat (k_len b)) (k_data a) = kid_val b).
  { apply cmp_eq_iff; apply bytes_firstn; auto. }
  split; [exact E|]. split.
  - intros L. rewrite E. unfold kid_val. rewrite L. tauto.
  - intros L. rewrite E. unfold kid_val. split.
    + intros F. exists (skipn (Z.to_nat (k_len b)) (firstn (Z.to_nat (k_len a)) (k_data a))). rewrite <- F.
      transitivity (firstn (Z.to_nat (k_len b)) (firstn (Z.to_nat (k_len a)) (k_data a)) ++
                    skipn (Z.to_nat (k_len b)) (firstn (Z.to_nat (k_len a)) (k_data a))).
      { symmetry. apply firstn_skipn. }
      f_equal. rewrite firstn_firstn. f_equal. lia.
    + intros [rest F].
      assert (G : firstn (Z.to_nat (k_len b)) (firstn (Z.to_nat (k_len a)) (k_data a)) = firstn (Z.to_nat (k_len b)) (k_data b)).
      { rewrite F. rewrite firstn_app, firstn_length, B2. replace (_ - _)%nat with 0%nat by lia. cbn. rewrite app_nil_r.
        rewrite firstn_firstn. f_equal. lia. }
      rewrite firstn_firstn in G. replace (Nat.min _ _) with (Z.to_nat (k_len b)) in G by lia. exact G.
Qed.
Print Assumptions C78_same_partial.
Example C78_same_partial_ex : exists a b, wf_kid a /\ wf_kid b /\ k_len a = 2 /\ k_len b = 2 /\ id_same a b = false.
Proof.
  exists (snd (generate_id kid0 (Some [1; 2]) None)), (snd (generate_id kid0 (Some [1; 3]) None)).
  assert (W : forall l, bytes l -> (length l <= 192)%nat -> wf_kid (snd (generate_id kid0 (Some l) None))).
  { intros l B L. destruct (C78_generate kid0 (Some l) None) as [C _].
    - unfold wf_kid, kid0. cbn [k_len k_data]. split; [lia|]. split; [reflexivity|].
      apply Forall_forall. intros z I. apply repeat_spec in I. subst z. red. lia.
    - exact B.
    - constructor.
    - destruct C as (k&E&K&_); [cbn [opt_bytes length]; lia|]. rewrite E. exact K. }
  assert (B : forall a b, 0 <= a < 256 -> 0 <= b < 256 -> bytes [a; b]).
  { intros a b A B. apply Forall_cons; [exact A|]. apply Forall_cons; [exact B|]. apply Forall_nil. }
  split; [apply W; [apply B; lia|cbn; lia]|]. split; [apply W; [apply B; lia|cbn; lia]|].
  vm_compute. auto.
Qed.
(** "Two identifiers are the same" is neither equality nor symmetric, and an
    empty identifier is the same as every other one. *)
Theorem C78_same_refuted : exists a b,
  (exists x y, generate_id kid0 (Some x) None = (0, a) /\ generate_id kid0 (Some y) None = (0, b)) /\
  id_same a b = true /\ kid_val a <> kid_val b /\ id_same b a = false /\
  (forall k, id_same k kid0 = true).
Proof.
  exists (snd (generate_id kid0 (Some [9; 8; 7]) None)), (snd (generate_id kid0 (Some [9; 8]) None)).
  split; [exists [9; 8; 7], [9; 8]; split; reflexivity|]. split; [vm_compute; reflexivity|].
  split; [vm_compute; discriminate|]. split; [vm_compute; reflexivity|]. reflexivity.
Qed.
Print Assumptions C78_same_refuted.
(** The certificate identifier (serial number followed by issuer) does not
    determine the two parts. *)
Theorem C78_issuer_serial_refuted : exists serial issuer serial' issuer' k,
  serial <> serial' /\ issuer <> issuer' /\
  generate_id kid0 (Some serial) (Some issuer) = (0, k) /\ generate_id kid0 (Some serial') (Some issuer') = (0, k).
Proof.
  exists [1], [2; 3], [1; 2], [3]. eexists. split; [discriminate|]. split; [discriminate|]. split; reflexivity.
Qed.
Print Assumptions C78_issuer_serial_refuted.

(** ** Signatures: what "signed by" means *)
Section Spec.
  Variable alg_verify : Z -> pubkey -> sigdata -> Z.
  Variable sig_check_hash : Z -> Z -> Z.
  Variable H : nat -> cert.
  (** [x] carries a signature that the key of [t] verifies *)
  Definition signed_by (t x : nat) : Prop := 0 <= verify_signature alg_verify sig_check_hash (c_pub (H t)) (c_sig (H x)).
  Definition has_keycertsign (p : nat) : Prop := Z.testbit (pk_usage (c_pub (H p))) 2 = true.
  (** The declarative notion of trust: an anchor, or signed by an anchor, or
      signed by an issuer from the message that may sign certificates and is
      itself trusted. *)
  Inductive trusted (R : nat -> nat -> Prop) (chain anchors : list nat) : nat -> Prop :=
  | by_self : forall x, In x anchors -> trusted R chain anchors x
  | by_anchor : forall x t, In t anchors -> R t x -> trusted R chain anchors x
  | by_issuer : forall x p, In p chain -> has_keycertsign p -> R p x -> trusted R chain anchors p ->
      trusted R chain anchors x.
  Definition certified := trusted signed_by.
  Lemma trusted_mono : forall (R R' : nat -> nat -> Prop) chain anchors x, (forall a b, R a b -> R' a b) ->
    trusted R chain anchors x -> trusted R' chain anchors x.
  Proof.
    intros R R' chain anchors x M T. induction T; [apply by_self|eapply by_anchor|eapply by_issuer]; eauto.
  Qed.
End Spec.

(** toy signature scheme for the witnesses: a signature is the key followed
    by the message *)
Definition toy_verify (k : Z) (pk : pubkey) (s : sigdata) : Z :=
  match s_s s with
  | Some sg => if cmp_eq sg (pk_key pk ++ opt_bytes (s_raw s) ++ s_digest s) then 0 else EBADMSG
  | None => EBADMSG
  end.
Definition toy_check (a h : Z) : Z := 0.
Definition toy_hash (h : Z) (m : list Z) : list Z := [h; fold_left Z.add m 0 mod 256].
Definition no_clock (i : nat) : Z * Z := (EOPNOTSUPP, 0).
Definition mkid (l : list Z) : kid := snd (generate_id kid0 (Some l) None).
Definition mkcert (key signer name : Z) (skid akid : list Z) (ca usage : Z) (self : bool) : cert :=
  {| c_pub := {| pk_key := [key]; pk_algo := SIG_DILITHIUM_65; pk_usage := usage; pk_eku := 0; pk_pathlen := ca |};
     c_sig := {| s_s := Some [signer; name]; s_digest := []; s_hash := None; s_algo := SIG_DILITHIUM_65;
                 s_raw := Some [name]; s_auth0 := kid0; s_auth1 := mkid akid |};
     c_id := mkid [name; 77]; c_skid := mkid skid; c_from := 1000; c_to := 2000;
     c_raw_issuer := Some [signer]; c_raw_subject := Some [key]; c_san_dns := None; c_san_ip := None;
     c_raw_skid := Some skid; c_raw_akid := Some akid; c_version := 3; c_self_signed := self; c_unsupported := false |}.
Definition usage_sign := 8196.      (* extension present, keyCertSign *)
Definition ca_unlimited := 144.     (* CA, critical, MAXLEN *)
Definition st0 : vstate := {| v_seen := fun _ => false; v_signer := fun _ => None; v_black := fun _ => false; v_sblack := false |}.
Definition mksinfo (g : cert) (signer : Z) (data : list Z) : sinfo :=
  {| si_sig := {| s_s := Some ([signer] ++ toy_hash 1 data); s_digest := []; s_hash := Some 1; s_algo := SIG_DILITHIUM_65;
                  s_raw := None; s_auth0 := c_id g; s_auth1 := kid0 |};
     si_has_time := false; si_time := 0; si_msgdigest := None; si_authattrs := None |}.

(** ** C79: self-signed certificates *)
(** A certificate is marked self-signed only if subject and issuer agree and
    its own key verifies its signature. *)
Theorem C79_sound : forall av ch c r c', c_self_signed c = false -> bytes (opt_bytes (c_raw_subject c)) ->
  bytes (opt_bytes (c_raw_issuer c)) -> check_self_signed av ch c = (r, c') -> c_self_signed c' = true ->
  opt_bytes (c_raw_subject c) = opt_bytes (c_raw_issuer c) /\ 0 <= verify_signature av ch (c_pub c) (c_sig c).
Proof.
  intros av ch c r c' S B1 B2 E T. unfold check_self_signed in E.
  destruct (cmp_eq _ _) eqn:N in E; cbn [negb] in E.
  2:{ injection E as _ <-. congruence. }
  split; [apply cmp_eq_iff; auto|].
  assert (TO : forall r c', (if c_unsupported c then (0, c)
          else let r := verify_signature av ch (c_pub c) (c_sig c) in
               if r <? 0 then if r =? ENOPKG then (0, upd_self c (c_self_signed c) true) else (r, c)
               else (r, upd_self c true (c_unsupported c))) = (r, c') -> c_self_signed c' = true ->
          0 <= verify_signature av ch (c_pub c) (c_sig c)).
  { intros r0 c0 X Y. destruct (c_unsupported c); [injection X as _ <-; congruence|]. cbv zeta in X.
    destruct (Z.ltb_spec (verify_signature av ch (c_pub c) (c_sig c)) 0) as [L|L]; [|lia].
    destruct (_ =? ENOPKG); injection X as _ <-; [cbn [upd_self c_self_signed] in Y|]; congruence. }
  destruct (_ || _) in E.
  - destruct (_ && _) in E; [injection E as _ <-; congruence|].
    destruct (_ && _) in E; [injection E as _ <-; congruence|]. eapply TO; eauto.
  - eapply TO; eauto.
Qed.
Print Assumptions C79_sound.
Example C79_sound_ex : exists c c', check_self_signed toy_verify toy_check c = (0, c') /\ c_self_signed c' = true.
Proof.
  exists (mkcert 5 5 5 [10] [10] ca_unlimited usage_sign false). eexists. split; vm_compute; reflexivity.
Qed.
(** A certificate that names another key as its authority is not treated as
    self-signed - refuted: when only the key identifier is given, the missing
    issuer-and-serial part counts as a match, the own key is tried, and the
    certificate is refused as a whole. *)
Theorem C79_self_issued_refuted : exists c,
  c_raw_subject c = c_raw_issuer c /\ kid_val (s_auth1 (c_sig c)) <> kid_val (c_skid c) /\
  k_len (s_auth0 (c_sig c)) = 0 /\
  (exists issuer, 0 <= verify_signature toy_verify toy_check issuer (c_sig c)) /\
  fst (check_self_signed toy_verify toy_check c) < 0.
Proof.
  exists {| c_pub := c_pub (mkcert 5 6 5 [10] [11] ca_unlimited usage_sign false);
            c_sig := c_sig (mkcert 5 6 5 [10] [11] ca_unlimited usage_sign false);
            c_id := mkid [5; 77]; c_skid := mkid [10]; c_from := 0; c_to := 0; c_raw_issuer := Some [5];
            c_raw_subject := Some [5]; c_san_dns := None; c_san_ip := None; c_raw_skid := Some [10];
            c_raw_akid := Some [11]; c_version := 3; c_self_signed := false; c_unsupported := false |}.
  split; [reflexivity|]. split; [vm_compute; discriminate|]. split; [reflexivity|]. split.
  - exists (c_pub (mkcert 6 6 6 [] [] 0 0 false)). vm_compute. discriminate.
  - vm_compute. reflexivity.
Qed.
Print Assumptions C79_self_issued_refuted.

(** ** C80: what a successful verification against a trust store establishes *)
Section C80.
  Variable av : Z -> pubkey -> sigdata -> Z.
  Variable ch : Z -> Z -> Z.
  Variable hash : Z -> list Z -> list Z.
  Variable clock : nat -> Z * Z.
  Variable H : nat -> cert.

  Lemma find_key_in : forall anchors a0 a1 t, find_asymmetric_key H (Some anchors) a0 a1 = inr t -> In t anchors.
  Proof using H.
    intros anchors a0 a1 t F. unfold find_asymmetric_key in F.
    destruct (negb (k_len a0 =? 0)).
    - destruct (find _ anchors) eqn:E; [|discriminate]. apply find_some in E. destruct (_ && _) in F; [discriminate|].
      injection F as <-. exact (proj1 E).
    - destruct (negb (k_len a1 =? 0)); [|discriminate]. destruct (find _ anchors) eqn:E; [|discriminate].
      apply find_some in E. injection F as <-. exact (proj1 E).
  Qed.
  Lemma find_issuer_in : forall chain a0 a1 p b, find_issuer H chain a0 a1 = Some (p, b) -> In p chain.
  Proof using H.
    intros chain a0 a1 t b F. unfold find_issuer in F.
    destruct (negb (k_len a0 =? 0)).
    - destruct (find _ chain) eqn:E; [|discriminate]. apply find_some in E. injection F as <- _. exact (proj1 E).
    - destruct (negb (k_len a1 =? 0)); [|discriminate]. destruct (find _ chain) eqn:E; [|discriminate].
      apply find_some in E. injection F as <- _. exact (proj1 E).
  Qed.
  Lemma usage_bit : forall c, match_key_usage (Some c) KU_KEYCERTSIGN = POL_TRUE -> Z.testbit (pk_usage (c_pub c)) 2 = true.
  Proof.
    intros c M. cbn [match_key_usage] in M. change (KU_KEYCERTSIGN =? 0) with false in M. cbn iota in M.
    destruct (negb _) in M; [discriminate|]. destruct (Z.eqb_spec (Z.land (Z.land (pk_usage (c_pub c)) (65535 - KU_PRESENT)) KU_KEYCERTSIGN)
      KU_KEYCERTSIGN) as [E|E]; [|discriminate]. apply (f_equal (fun z => Z.testbit z 2)) in E.
    rewrite !Z.land_spec in E. change (Z.testbit (65535 - KU_PRESENT) 2) with true in E.
    change (Z.testbit KU_KEYCERTSIGN 2) with true in E. rewrite !andb_true_r in E. exact E.
  Qed.
  (** the check made of a certificate with the key of another one *)
  Definition checked (t x : nat) : Prop := exists i, 0 <= cert_verify av ch (clock i) (c_pub (H t)) (H x).
  Lemma inv2 : forall (a c : Z) (b d : vstate), Some (a, b) = Some (c, d) -> a = c.
  Proof. intros a c b d E. injection E. auto. Qed.
  Lemma inv3 : forall (a c : Z) (x y : sinfo) (b d : vstate), Some (a, x, b) = Some (c, y, d) -> a = c.
  Proof. intros a c x y b d E. injection E. auto. Qed.
  Lemma cert_verify_sig : forall ck pk c, fst ck <= 0 -> 0 <= cert_verify av ch ck pk c ->
    0 <= verify_signature av ch pk (c_sig c).
  Proof.
    intros [rc now] pk c F V. cbn [fst] in F. unfold cert_verify in V.
    destruct (Z.eqb_spec rc EOPNOTSUPP) as [E|N1]; cbn [negb andb] in V.
    - cbn in V. exact V.
    - destruct (Z.eqb_spec rc 0) as [E|N2]; cbn [negb andb] in V; [|exfalso; lia].
      destruct (now =? 0); [exact V|].
      destruct (time_valid (Some c) now <? 0) eqn:TV; [apply Z.ltb_lt in TV; lia|].
      destruct (_ =? POL_FALSE) in V; [unfold EKEYREJECTED in V; lia|exact V].
  Qed.
  Lemma loop_certified : forall chain anchors start fuel i x st st',
    chain_loop av ch clock H chain (Some anchors) start fuel i x st = Some (0, st') ->
    is_root_ca (Some (H x)) = POL_TRUE \/ trusted H checked chain anchors x.
  Proof.
    intros chain anchors start. induction fuel as [|fuel IH]; intros i x st st' E; [discriminate|]. cbn [chain_loop] in E.
    destruct (v_black _ x) in E.
    { destruct start; [|discriminate]. destruct (mark_black _ _ _ _) in E; discriminate. }
    cbv zeta in E. destruct (is_root_ca (Some (H x)) <? 0) eqn:R0.
    { apply Z.ltb_lt in R0. apply inv2 in E. lia. }
    destruct (Z.eqb_spec (is_root_ca (Some (H x))) POL_TRUE) as [RT|RT]; [left; exact RT|]. right.
    assert (SIG : forall t i, 0 <= cert_verify av ch (clock i) (c_pub (H t)) (H x) -> checked t x).
    { intros t j V. exists j. exact V. }
    assert (ERR : forall v s s', Some (err_or v 0, s) = Some (0, s' : vstate) -> 0 <= v).
    { intros v s s' X. unfold err_or in X. destruct (Z.ltb_spec v 0); [injection X as X _; lia|lia]. }
    destruct (find_issuer H chain (s_auth0 (c_sig (H x))) (s_auth1 (c_sig (H x)))) as [[p chk]|] eqn:FI.
    - apply find_issuer_in in FI. destruct (_ && _) in E; [discriminate|]. destruct (v_seen _ p) in E; [discriminate|].
      destruct (match_key_usage (Some (H p)) KU_KEYCERTSIGN <? 0) eqn:MU.
      { apply Z.ltb_lt in MU. apply inv2 in E. lia. }
      destruct (Z.eqb_spec (match_key_usage (Some (H p)) KU_KEYCERTSIGN) POL_TRUE) as [MT|MT]; cbn [negb] in E; [|discriminate].
      destruct (is_root_ca (Some (H p)) <? 0) eqn:P0.
      { apply Z.ltb_lt in P0. apply inv2 in E. lia. }
      destruct (Z.eqb_spec (is_root_ca (Some (H p))) POL_TRUE) as [PT|PT].
      + destruct (find_asymmetric_key H (Some anchors) (c_id (H p)) (c_skid (H p))) as [e|t] eqn:FK.
        * exfalso. unfold find_asymmetric_key in FK.
          assert (e <> 0).
          { repeat match type of FK with
            | context [match ?b with _ => _ end] => destruct b
            | context [if ?b then _ else _] => destruct b
            end; try discriminate FK; injection FK as <-; discriminate. }
          apply inv2 in E. congruence.
        * apply find_key_in in FK. apply ERR in E. eapply by_anchor; eauto.
      + destruct (cert_verify av ch (clock i) (c_pub (H p)) (H x) <? 0) eqn:CV.
        { apply Z.ltb_lt in CV. apply inv2 in E. lia. }
        apply Z.ltb_ge in CV. apply IH in E. destruct E as [E|E]; [congruence|].
        eapply by_issuer; eauto. apply usage_bit. exact MT.
    - destruct (find_asymmetric_key H (Some anchors) _ _) as [e|t] eqn:FK; [discriminate|].
      apply find_key_in in FK. apply ERR in E. eapply by_anchor; eauto.
  Qed.

  Lemma verify_one_sound : forall certs data anchors rl s st s' st',
    verify_one av ch hash clock H certs data (Some anchors) rl s st = Some (0, s', st') ->
    exists g, In g certs /\ fst (pkcs7_digest hash data s) = 0 /\ s' = snd (pkcs7_digest hash data s) /\
      0 <= verify_signature av ch (c_pub (H g)) (si_sig s') /\
      (is_root_ca (Some (H g)) = POL_TRUE \/ trusted H checked certs anchors g).
  Proof.
    intros certs data anchors rl s st s' st' E. unfold verify_one in E.
    destruct (pkcs7_digest hash data s) as [r s1] eqn:PD. cbn [fst snd].
    assert (R : r <= 0).
    { unfold pkcs7_digest in PD.
      repeat match type of PD with
      | context [match ?b with _ => _ end] => destruct b
      | context [if ?b then _ else _] => destruct b
      end; injection PD as <- _; unfold ENOPKG, EKEYREJECTED, EBADMSG; lia. }
    destruct (Z.ltb_spec r 0) as [L|L]; [apply inv3 in E; lia|].
    destruct (find_key H certs s1) as [g|] eqn:FK; [|discriminate]. unfold find_key in FK. apply find_some in FK.
    destruct (_ && _) in E; [discriminate|].
    destruct rl as [[ku eku]|]; cbn iota zeta beta in E.
    - destruct (match_key_usage (Some (H g)) ku <? 0) eqn:A; [apply Z.ltb_lt in A; apply inv3 in E; lia|].
      destruct (negb _) in E; [discriminate|].
      destruct (match_eku (Some (H g)) eku <? 0) eqn:B; [apply Z.ltb_lt in B; apply inv3 in E; lia|].
      destruct (negb _) in E; [discriminate|].
      destruct (verify_signature av ch (c_pub (H g)) (si_sig s1) <? 0) eqn:V; [apply Z.ltb_lt in V; apply inv3 in E; lia|].
      apply Z.ltb_ge in V.
      destruct (verify_sig_chain _ _ _ _ _ _ _ _ _) as [[r' s'']|] eqn:VC in E; [|discriminate]. injection E as -> <- <-.
      exists g. split; [tauto|]. split; [lia|]. split; [reflexivity|]. split; [exact V|].
      unfold verify_sig_chain in VC. eapply loop_certified. exact VC.
    - change (POL_TRUE <? 0) with false in E. change (negb (POL_TRUE =? POL_TRUE)) with false in E. cbn iota in E.
      destruct (verify_signature av ch (c_pub (H g)) (si_sig s1) <? 0) eqn:V; [apply Z.ltb_lt in V; apply inv3 in E; lia|].
      apply Z.ltb_ge in V.
      destruct (verify_sig_chain _ _ _ _ _ _ _ _ _) as [[r' s'']|] eqn:VC in E; [|discriminate]. injection E as -> <- <-.
      exists g. split; [tauto|]. split; [lia|]. split; [reflexivity|]. split; [exact V|].
      unfold verify_sig_chain in VC. eapply loop_certified. exact VC.
  Qed.
  Lemma verify_all_sound : forall certs data anchors rl l cached st l' st',
    verify_all av ch hash clock H certs data (Some anchors) rl l cached st = Some (0, l', st') -> cached <> 0 ->
    exists s st1 s' st2, In s l /\ verify_one av ch hash clock H certs data (Some anchors) rl s st1 = Some (0, s', st2).
  Proof.
    intros certs data anchors rl. induction l as [|s l IH]; intros cached st l' st' E N; cbn [verify_all] in E.
    { injection E as E _ _. congruence. }
    destruct (verify_one av ch hash clock H certs data (Some anchors) rl s st) as [[[r s'] st1]|] eqn:V; [|discriminate].
    destruct (Z.eqb_spec r ENOKEY) as [R1|R1].
    { destruct (verify_all _ _ _ _ _ _ _ _ _ l cached st1) as [[[r2 l2] st2]|] eqn:A in E; [|discriminate].
      injection E as -> _ _. destruct (IH _ _ _ _ A N) as (a&b&c&d&I&W). exists a, b, c, d. split; [right; exact I|exact W]. }
    destruct (Z.eqb_spec r ENOPKG) as [R2|R2].
    { destruct (verify_all _ _ _ _ _ _ _ _ _ l _ st1) as [[[r2 l2] st2]|] eqn:A in E; [|discriminate].
      injection E as -> _ _. destruct (IH _ _ _ _ A) as (a&b&c&d&I&W).
      { destruct (cached =? ENOKEY); [discriminate|exact N]. }
      exists a, b, c, d. split; [right; exact I|exact W]. }
    destruct (Z.eqb_spec r 0) as [->|R3].
    { exists s, st, s', st1. split; [left; reflexivity|exact V]. }
    injection E as E _ _. congruence.
  Qed.
End C80.

(** If [lc_pkcs7_verify] succeeds with a trust store, then one of the signer
    infos was checked: its signature (over the content digest, or over the
    attributes holding it) verifies under the key of a certificate of the
    message; and that certificate is trusted - or it is itself a self-signed
    root CA, for which the trust store is not consulted. *)
Theorem C80_trust_partial : forall av ch hash clock H certs ok data anchors rl l st l' st',
  (forall i, fst (clock i) <= 0) ->
  lc_pkcs7_verify av ch hash clock H certs ok data (Some anchors) rl l st = Some (0, l', st') ->
  exists s g d, In s l /\ In g certs /\ data = Some d /\ ok = true /\
    fst (pkcs7_digest hash d s) = 0 /\
    0 <= verify_signature av ch (c_pub (H g)) (si_sig (snd (pkcs7_digest hash d s))) /\
    (certified av ch H certs anchors g \/ is_root_ca (Some (H g)) = POL_TRUE).
Proof.
  intros av ch hash clock H certs ok data anchors rl l st l' st' CK E. unfold lc_pkcs7_verify in E.
  destruct ok; cbn [negb] in E; [|discriminate]. destruct data as [d|]; [|discriminate].
  destruct (verify_all_sound _ _ _ _ _ _ _ _ _ _ _ _ _ _ E ltac:(discriminate)) as (s&st1&s'&st2&I&V).
  destruct (verify_one_sound _ _ _ _ _ _ _ _ _ _ _ _ _ V) as (g&G&P0&P1&SV&TR).
  subst s'. exists s, g, d. repeat (split; [solve [auto]|]). destruct TR as [TR|TR]; [right; exact TR|left].
  revert TR. apply trusted_mono. intros a b (i&C). exact (cert_verify_sig _ _ _ _ _ (CK i) C).
Qed.
Print Assumptions C80_trust_partial.

(** an honest situation: leaf 2 signed by intermediate 1 signed by anchor 0 *)
Definition H_good (n : nat) : cert :=
  match n with
  | 0%nat => mkcert 100 100 100 [10] [10] ca_unlimited usage_sign true
  | 1%nat => mkcert 101 100 101 [11] [10] ca_unlimited usage_sign false
  | _ => mkcert 102 101 102 [12] [11] 0 8320 false
  end.
Example C80_trust_partial_ex : exists l' st',
  lc_pkcs7_verify toy_verify toy_check toy_hash no_clock H_good [2%nat; 1%nat] true (Some [1; 2; 3]) (Some [0%nat])
    (Some (128, 0)) [mksinfo (H_good 2) 102 [1; 2; 3]] st0 = Some (0, l', st') /\
  lc_pkcs7_verify toy_verify toy_check toy_hash no_clock H_good [2%nat; 1%nat] true (Some [1; 2; 4]) (Some [0%nat])
    (Some (128, 0)) [mksinfo (H_good 2) 102 [1; 2; 3]] st0 <> Some (0, l', st').
Proof.
  eexists. eexists. split; [vm_compute; reflexivity|]. intros X. apply (f_equal (fun o => match o with Some (r, _, _) => r | None => 1 end)) in X.
  vm_compute in X. discriminate.
Qed.

(** "A message that verifies against a trust store was signed under a key the
    trust store vouches for" is false: anyone can attach a self-signed CA
    certificate of their own and sign with its key. *)
Definition H_attack (n : nat) : cert :=
  match n with
  | 0%nat => mkcert 100 100 100 [10] [10] ca_unlimited usage_sign true     (* the only anchor *)
  | _ => mkcert 66 66 66 [13] [13] ca_unlimited usage_sign true            (* the attacker's own certificate *)
  end.
Theorem C80_trust_refuted : exists l' st',
  lc_pkcs7_verify toy_verify toy_check toy_hash no_clock H_attack [1%nat] true (Some [6; 6; 6]) (Some [0%nat])
    None [mksinfo (H_attack 1) 66 [6; 6; 6]] st0 = Some (0, l', st') /\
  ~ certified toy_verify toy_check H_attack [1%nat] [0%nat] 1.
Proof.
  eexists. eexists. split; [vm_compute; reflexivity|].
  assert (A : forall x, certified toy_verify toy_check H_attack [1%nat] [0%nat] x -> x <> 1%nat).
  { intros x C. induction C as [x I|x t I S|x p I U S C IH]; intros ->.
    - destruct I as [I|[]]. discriminate.
    - destruct I as [<-|[]]. apply S. vm_compute. reflexivity.
    - destruct I as [<-|[]]. congruence. }
  intros C. apply (A _ C). reflexivity.
Qed.
Print Assumptions C80_trust_refuted.

(** ** C81: the trust store *)
(** "A certificate that is not a self-signed root enters the trust store only
    when its signature chain leads to an anchor" is false: the signature of
    the certificate is not checked when its issuer is a root CA. *)
Definition H_forged (n : nat) : cert :=
  match n with
  | 0%nat => mkcert 100 100 100 [10] [10] ca_unlimited usage_sign true
  | _ => mkcert 66 66 67 [13] [10] ca_unlimited usage_sign false   (* claims issuer 0, signed with its own key *)
  end.
Definition store1 : store := {| t_head := Some 0%nat; t_next := fun _ => None |}.
Theorem C81_add_refuted : exists t st,
  trust_store_add toy_verify toy_check no_clock H_forged store1 [0%nat] 1 st0 = Some (0, t, st) /\
  members 5 (t_next t) (t_head t) = Some [0%nat; 1%nat] /\
  is_root_ca (Some (H_forged 1)) = POL_FALSE /\
  ~ certified toy_verify toy_check H_forged [0%nat] [0%nat] 1.
Proof.
  eexists. eexists. split; [vm_compute; reflexivity|]. split; [vm_compute; reflexivity|]. split; [vm_compute; reflexivity|].
  assert (A : forall x, certified toy_verify toy_check H_forged [0%nat] [0%nat] x -> x <> 1%nat).
  { intros x C. induction C as [x I|x t I S|x p I U S C IH]; intros ->.
    - destruct I as [I|[]]. discriminate.
    - destruct I as [<-|[]]. apply S. vm_compute. reflexivity.
    - destruct I as [<-|[]]. apply S. vm_compute. reflexivity. }
  intros C. apply (A _ C). reflexivity.
Qed.
Print Assumptions C81_add_refuted.
(** ... and a message signed with the forged key then verifies, with the
    forged certificate found in the trust store. *)
Example C81_add_consequence : exists l' st',
  lc_pkcs7_verify toy_verify toy_check toy_hash no_clock
    (fun n => match n with 2%nat => mkcert 68 66 68 [14] [13] 0 8320 false | _ => H_forged n end)
    [2%nat] true (Some [1]) (Some [0%nat; 1%nat]) None
    [mksinfo (mkcert 68 66 68 [14] [13] 0 8320 false) 68 [1]] st0 = Some (0, l', st').
Proof. eexists. eexists. vm_compute. reflexivity. Qed.

Fixpoint last_next (next : nat -> option nat) (l : list nat) : Prop :=
  match l with
  | [] => True
  | [x] => next x = None
  | x :: (y :: _) as l' => next x = Some y /\ last_next next l'
  end.
Lemma members_links : forall l next fuel p, members fuel next p = Some l -> last_next next l /\ p = hd_error l.
Proof.
  induction l as [|x l IH]; intros next fuel p M.
  - destruct p; [|split; [exact Logic.I|reflexivity]]. destruct fuel; cbn in M; [discriminate|]. destruct (members fuel next (next n)); discriminate.
  - destruct p as [p|]; [|destruct fuel; discriminate]. destruct fuel as [|f]; cbn in M; [discriminate|].
    destruct (members f next (next p)) as [l'|] eqn:M'; [|discriminate]. injection M as -> ->.
    destruct (IH _ _ _ M') as [A B]. split; [|reflexivity]. destruct l; cbn [last_next hd_error] in *; auto.
Qed.
Lemma links_members : forall l next fuel, last_next next l -> (length l <= fuel)%nat -> members fuel next (hd_error l) = Some l.
Proof.
  induction l as [|x l IH]; intros next fuel L F; [destruct fuel; reflexivity|].
  destruct fuel as [|f]; cbn [length] in F; [lia|]. cbn [members hd_error].
  assert (N : next x = hd_error l) by (destruct l; cbn [last_next hd_error] in *; tauto).
  rewrite N, IH; [reflexivity| |lia]. destruct l; [exact Logic.I|]. apply L.
Qed.
Lemma append_ok : forall l x next fuel, last_next next l -> ~ In x l -> next x = None -> l <> [] -> NoDup l ->
  (length l <= S fuel)%nat ->
  exists next', append_loop fuel x next (hd_error l) = Some next' /\ last_next next' (l ++ [x]).
Proof.
  induction l as [|a l IH]; intros x next fuel L NI NX NE ND F; [congruence|].
  destruct l as [|b l].
  - cbn [hd_error append_loop last_next app] in *. destruct fuel; cbn [append_loop]; rewrite L; eexists; (split; [reflexivity|]).
    all: unfold fset; rewrite Nat.eqb_refl; split; [reflexivity|].
    all: destruct (Nat.eqb_spec x a) as [->|]; [exfalso; apply NI; left; reflexivity|exact NX].
  - destruct L as [L1 L2]. destruct fuel as [|f]; [cbn [length] in F; lia|]. cbn [hd_error append_loop]. rewrite L1.
    destruct (IH x next f L2) as (nx&A&B); [intros I; apply NI; right; auto|auto|discriminate|inversion ND; auto|cbn [length] in *; lia|].
    exists nx. split; [exact A|]. cbn [app] in *. cbn [last_next]. split; [|exact B].
    (* only the last member is written *)
    assert (K : forall l f n1 n2 y, last_next n1 l -> append_loop f x n1 (hd_error l) = Some n2 -> ~ In y l -> n2 y = n1 y).
    { clear. induction l as [|c l IH]; intros f n1 n2 y L A NI.
      - destruct f; cbn in A; injection A as <-; reflexivity.
      - destruct l as [|d l].
        + cbn [hd_error last_next] in *. destruct f; cbn [append_loop] in A; rewrite L in A; injection A as <-;
            unfold fset; (destruct (Nat.eqb_spec y c) as [->|]; [exfalso; apply NI; left; auto|reflexivity]).
        + destruct L as [L1 L2]. destruct f; cbn [hd_error append_loop] in A; rewrite L1 in A; [discriminate|].
          apply (IH f n1 n2 y L2 A). intros I. apply NI. right. exact I. }
    rewrite (K (b :: l) f next nx a L2 A); [exact L1|]. inversion ND. auto.
Qed.
(** What holds: a certificate object that is not yet a member and is accepted
    is a CA and becomes the last member; a refused one leaves the store as it
    was; no other outcome exists. *)
Theorem C81_add_partial : forall av ch clock H t anchors x st r t' st',
  members (S (length anchors)) (t_next t) (t_head t) = Some anchors -> NoDup anchors -> ~ In x anchors ->
  trust_store_add av ch clock H t anchors x st = Some (r, t', st') ->
  (r < 0 /\ t' = t) \/
  (r = 0 /\ is_ca (Some (H x)) = POL_TRUE /\
   members (S (length (anchors ++ [x]))) (t_next t') (t_head t') = Some (anchors ++ [x])).
Proof.
  intros av ch clock H t anchors x st r t' st' M ND NI E.
  apply members_links in M. destruct M as [ML MH].
  assert (LK : forall st r t' st', (let next := fset (t_next t) x None in
      match t_head t with
      | None => Some (0, {| t_head := Some x; t_next := next |}, st)
      | Some h => match append_loop (S (length anchors)) x next (Some h) with
                  | None => None
                  | Some next => Some (0, {| t_head := Some h; t_next := next |}, st : vstate)
                  end
      end) = Some (r, t', st') -> r = 0 /\ members (S (length (anchors ++ [x]))) (t_next t') (t_head t') = Some (anchors ++ [x])).
  { clear E. intros s r0 t0 s0 E. cbv zeta in E.
    assert (KL : forall l, last_next (t_next t) l -> ~ In x l -> last_next (fset (t_next t) x None) l).
    { induction l as [|a l IH]; intros A B; [exact Logic.I|]. assert (F : fset (t_next t) x None a = t_next t a).
      { unfold fset. destruct (Nat.eqb_spec a x) as [->|]; [exfalso; apply B; left; auto|reflexivity]. }
      destruct l as [|b l]; cbn [last_next] in *; rewrite F; [exact A|]. split; [tauto|]. apply IH; [tauto|].
      intros I. apply B. right. exact I. }
    destruct anchors as [|h anchors].
    - cbn [hd_error] in MH. rewrite MH in E. injection E as <- <- <-. split; [reflexivity|]. cbn [t_next t_head app length members].
      unfold fset. rewrite Nat.eqb_refl. cbn. reflexivity.
    - cbn [hd_error] in MH. rewrite MH in E.
      destruct (append_ok (h :: anchors) x (fset (t_next t) x None) (S (length (h :: anchors)))) as (nx&A&B).
      + apply KL; auto.
      + exact NI.
      + unfold fset. rewrite Nat.eqb_refl. reflexivity.
      + discriminate.
      + exact ND.
      + lia.
      + cbn [hd_error] in A. rewrite A in E. injection E as <- <- <-. split; [reflexivity|]. cbn [t_next t_head].
        rewrite <- (links_members ((h :: anchors) ++ [x]) nx (S (length ((h :: anchors) ++ [x]))) B); [reflexivity|lia]. }
  unfold trust_store_add in E.
  destruct (is_root_ca (Some (H x)) <? 0) eqn:R0; [apply Z.ltb_lt in R0; injection E as <- <- <-; left; auto|].
  destruct (Z.eqb_spec (is_root_ca (Some (H x))) POL_TRUE) as [RT|RT].
  - right. apply LK in E. destruct E as [E1 E2]. split; [exact E1|]. split; [|exact E2].
    unfold is_root_ca in RT. assert (P : pol_and (is_ca (Some (H x))) (is_selfsigned (Some (H x))) = POL_TRUE).
    { destruct (c_raw_akid (H x)); [|exact RT]. unfold pol_and in RT at 1. destruct (_ =? POL_TRUE) eqn:Q in RT; [exact RT|].
      rewrite RT in Q. discriminate. }
    unfold pol_and in P. destruct (Z.eqb_spec (is_ca (Some (H x))) POL_TRUE) as [Q|Q]; [exact Q|congruence].
  - destruct (is_ca (Some (H x)) <? 0) eqn:C0; [apply Z.ltb_lt in C0; injection E as <- <- <-; left; auto|].
    destruct (Z.eqb_spec (is_ca (Some (H x))) POL_TRUE) as [CT|CT]; cbn [negb] in E.
    2:{ injection E as <- <- <-. left. split; [unfold EKEYREJECTED; lia|reflexivity]. }
    destruct (verify_sig_chain _ _ _ _ _ _ _ _ _) as [[r1 st1]|] in E; [|discriminate].
    destruct (Z.ltb_spec r1 0) as [L|L]; [injection E as <- <- <-; left; auto|]. right. apply LK in E. tauto.
Qed.
Print Assumptions C81_add_partial.
Example C81_add_partial_ex : exists t st,
  members 2 (t_next store1) (t_head store1) = Some [0%nat] /\
  trust_store_add toy_verify toy_check no_clock H_good store1 [0%nat] 1 st0 = Some (0, t, st) /\
  trust_store_add toy_verify toy_check no_clock H_good store1 [0%nat] 2 st0 = Some (EKEYREJECTED, store1, st0).
Proof. eexists. eexists. split; [reflexivity|]. split; vm_compute; reflexivity. Qed.
(** Adding a member a second time succeeds and ties the list into a ring:
    following it never ends, whatever number of steps is allowed. *)
Theorem C81_ring_refuted : exists t st,
  trust_store_add toy_verify toy_check no_clock H_good store1 [0%nat] 0 st0 = Some (0, t, st) /\
  forall fuel, members fuel (t_next t) (t_head t) = None.
Proof.
  eexists. eexists. split; [vm_compute; reflexivity|]. cbn [t_next t_head].
  induction fuel as [|f IH]; [reflexivity|]. cbn [members] in *. unfold fset in *. cbn in *. rewrite IH. reflexivity.
Qed.
Print Assumptions C81_ring_refuted.

(** ** C82: rules for the certificates on the path *)
Definition valid_at (now : Z) (c : cert) : Prop :=
  (c_from c <> 0 -> c_from c <= now) /\ (c_to c <> 0 -> now <= c_to c).
(** What holds: when a clock is present, every certificate whose signature was
    checked is within its validity period, and every issuer taken from the
    message carries keyCertSign. *)
Theorem C82_path_partial : forall av ch hash clock H certs ok data anchors rl l st l' st' now,
  (forall i, clock i = (0, now)) -> now <> 0 ->
  lc_pkcs7_verify av ch hash clock H certs ok data (Some anchors) rl l st = Some (0, l', st') ->
  exists g, In g certs /\
    (is_root_ca (Some (H g)) = POL_TRUE \/
     trusted H (fun t x => signed_by av ch H t x /\ valid_at now (H x)) certs anchors g).
Proof.
  intros av ch hash clock H certs ok data anchors rl l st l' st' now CK N E. unfold lc_pkcs7_verify in E.
  destruct ok; cbn [negb] in E; [|discriminate]. destruct data as [d|]; [|discriminate].
  destruct (verify_all_sound _ _ _ _ _ _ _ _ _ _ _ _ _ _ E ltac:(discriminate)) as (s&st1&s'&st2&I&V).
  destruct (verify_one_sound _ _ _ _ _ _ _ _ _ _ _ _ _ V) as (g&G&P0&P1&SV&TR).
  exists g. split; [exact G|]. destruct TR as [TR|TR]; [left; exact TR|right].
  revert TR. apply trusted_mono. intros a b (i&C). split.
  - apply (cert_verify_sig av ch (clock i) _ _); [rewrite CK; cbn; lia|exact C].
  - rewrite CK in C. unfold cert_verify in C. cbn in C. destruct (Z.eqb_spec now 0); [contradiction|].
    unfold valid_at. destruct (Z.ltb_spec now 0); [exfalso; revert C; vm_compute; auto|].
    destruct (Z.ltb_spec (c_from (H b)) 0) as [F|F]; [exfalso; revert C; vm_compute; auto|].
    destruct (Z.ltb_spec (c_to (H b)) 0) as [T|T]; [exfalso; revert C; vm_compute; auto|]. cbn [orb] in C.
    destruct (Z.eqb_spec (c_from (H b)) 0) as [F0|F0]; destruct (Z.eqb_spec (c_to (H b)) 0) as [T0|T0]; cbn [negb andb] in C;
      repeat match type of C with context [?x <? ?y] => destruct (Z.ltb_spec x y); cbn [negb andb] in C end;
      try (exfalso; revert C; vm_compute; congruence); split; intros; lia.
Qed.
Print Assumptions C82_path_partial.
Example C82_path_partial_ex : exists l' st',
  lc_pkcs7_verify toy_verify toy_check toy_hash (fun _ => (0, 1500)) H_good [2%nat; 1%nat] true (Some [1; 2; 3]) (Some [0%nat])
    (Some (128, 0)) [mksinfo (H_good 2) 102 [1; 2; 3]] st0 = Some (0, l', st') /\
  lc_pkcs7_verify toy_verify toy_check toy_hash (fun _ => (0, 2001)) H_good [2%nat; 1%nat] true (Some [1; 2; 3]) (Some [0%nat])
    (Some (128, 0)) [mksinfo (H_good 2) 102 [1; 2; 3]] st0 <> Some (0, l', st').
Proof.
  eexists. eexists. split; [vm_compute; reflexivity|]. intros X. apply (f_equal (fun o => match o with Some (r, _, _) => r | None => 1 end)) in X.
  vm_compute in X. discriminate.
Qed.

(** "Every issuer on the path is a CA" is false: the intermediate below has no
    basicConstraints at all. *)
Definition has_ca (H : nat -> cert) (p : nat) : Prop := Z.land (pk_pathlen (c_pub (H p))) 31 <> 0.
Inductive ca_path (av : Z -> pubkey -> sigdata -> Z) (ch : Z -> Z -> Z) (H : nat -> cert) (chain anchors : list nat) : nat -> Prop :=
  | ca_anchor : forall x t, In t anchors -> has_ca H t -> signed_by av ch H t x -> ca_path av ch H chain anchors x
  | ca_issuer : forall x p, In p chain -> has_ca H p -> signed_by av ch H p x -> ca_path av ch H chain anchors p ->
      ca_path av ch H chain anchors x.
Definition H_noca (n : nat) : cert :=
  match n with
  | 1%nat => mkcert 101 100 101 [11] [10] 0 usage_sign false
  | _ => H_good n
  end.
Theorem C82_issuer_ca_refuted : exists l' st',
  lc_pkcs7_verify toy_verify toy_check toy_hash (fun _ => (0, 1500)) H_noca [2%nat; 1%nat] true (Some [1]) (Some [0%nat])
    None [mksinfo (H_noca 2) 102 [1]] st0 = Some (0, l', st') /\
  is_ca (Some (H_noca 1)) = POL_FALSE /\
  is_root_ca (Some (H_noca 2)) = POL_FALSE /\
  ~ ca_path toy_verify toy_check H_noca [2%nat; 1%nat] [0%nat] 2.
Proof.
  eexists. eexists. split; [vm_compute; reflexivity|]. split; [reflexivity|]. split; [vm_compute; reflexivity|].
  assert (A : forall x, ca_path toy_verify toy_check H_noca [2%nat; 1%nat] [0%nat] x -> x <> 2%nat).
  { intros x C. induction C as [x t I U S|x p I U S C IH]; intros ->.
    - destruct I as [<-|[]]. apply S. vm_compute. reflexivity.
    - destruct I as [<-|[<-|[]]]; [congruence|]. apply U. reflexivity. }
  intros C. apply (A _ C). reflexivity.
Qed.
Print Assumptions C82_issuer_ca_refuted.

(** "Path length constraints are enforced" is false. [k] counts the
    intermediates between an issuer and the signer. *)
Definition limit_ok (H : nat -> cert) (p : nat) (k : Z) : Prop :=
  let b := Z.land (pk_pathlen (c_pub (H p))) 31 in b < 16 -> k <= b.
Inductive len_path (av : Z -> pubkey -> sigdata -> Z) (ch : Z -> Z -> Z) (H : nat -> cert) (chain anchors : list nat) : Z -> nat -> Prop :=
  | len_anchor : forall k x t, In t anchors -> limit_ok H t k -> signed_by av ch H t x -> len_path av ch H chain anchors k x
  | len_issuer : forall k x p, In p chain -> limit_ok H p k -> signed_by av ch H p x -> len_path av ch H chain anchors (k + 1) p ->
      len_path av ch H chain anchors k x.
Definition H_long (n : nat) : cert :=
  match n with
  | 0%nat => mkcert 100 100 100 [10] [10] 129 usage_sign true               (* pathLenConstraint 1 *)
  | 1%nat => mkcert 101 100 101 [11] [10] ca_unlimited usage_sign false
  | 2%nat => mkcert 102 101 102 [12] [11] ca_unlimited usage_sign false
  | _ => mkcert 103 102 103 [13] [12] 0 8320 false
  end.
Theorem C82_pathlen_refuted : exists l' st',
  lc_pkcs7_verify toy_verify toy_check toy_hash (fun _ => (0, 1500)) H_long [3%nat; 2%nat; 1%nat] true (Some [1]) (Some [0%nat])
    None [mksinfo (H_long 3) 103 [1]] st0 = Some (0, l', st') /\
  is_root_ca (Some (H_long 3)) = POL_FALSE /\
  ~ len_path toy_verify toy_check H_long [3%nat; 2%nat; 1%nat] [0%nat] 0 3.
Proof.
  eexists. eexists. split; [vm_compute; reflexivity|]. split; [vm_compute; reflexivity|].
  assert (A : forall k x, len_path toy_verify toy_check H_long [3%nat; 2%nat; 1%nat] [0%nat] k x ->
              0 <= k -> x <> 3%nat /\ (x = 2%nat -> k <= 0) /\ (x = 1%nat -> k <= 1)).
  { intros k x C. induction C as [k x t I L S|k x p I L S C IH]; intros K.
    - destruct I as [<-|[]]. split; [intros ->; apply S; vm_compute; reflexivity|]. split; [intros ->; exfalso; apply S; vm_compute; reflexivity|].
      intros ->. apply L. vm_compute. reflexivity.
    - specialize (IH ltac:(lia)). destruct IH as (IH1&IH2&IH3). destruct I as [<-|[<-|[<-|[]]]].
      + congruence.
      + specialize (IH2 eq_refl). lia.
      + specialize (IH3 eq_refl). split; [intros ->; apply S; vm_compute; reflexivity|]. split; [intros _; lia|].
        intros ->. exfalso. apply S. vm_compute. reflexivity. }
  intros C. destruct (A _ _ C ltac:(lia)) as [X _]. congruence.
Qed.
Print Assumptions C82_pathlen_refuted.

(** "No expired certificate contributes" is false: the anchor below expired
    long ago, and so did the self-signed signer of the second message. *)
Definition live (c : cert) : cert :=
  {| c_pub := c_pub c; c_sig := c_sig c; c_id := c_id c; c_skid := c_skid c; c_from := 1000; c_to := 9000;
     c_raw_issuer := c_raw_issuer c; c_raw_subject := c_raw_subject c; c_san_dns := c_san_dns c; c_san_ip := c_san_ip c;
     c_raw_skid := c_raw_skid c; c_raw_akid := c_raw_akid c; c_version := c_version c; c_self_signed := c_self_signed c;
     c_unsupported := c_unsupported c |}.
Definition H_old (n : nat) : cert := match n with 0%nat => H_good 0 | _ => live (H_good n) end.
Theorem C82_expired_refuted : exists l' st' l2 st2,
  lc_pkcs7_verify toy_verify toy_check toy_hash (fun _ => (0, 5000)) H_old [2%nat; 1%nat] true (Some [1]) (Some [0%nat])
    None [mksinfo (H_old 2) 102 [1]] st0 = Some (0, l', st') /\
  ~ valid_at 5000 (H_old 0) /\
  lc_pkcs7_verify toy_verify toy_check toy_hash (fun _ => (0, 5000)) H_old [0%nat] true (Some [1]) (Some [0%nat])
    None [mksinfo (H_old 0) 100 [1]] st0 = Some (0, l2, st2).
Proof.
  eexists. eexists. eexists. eexists. split; [vm_compute; reflexivity|]. split; [|vm_compute; reflexivity].
  intros [_ V]. specialize (V ltac:(discriminate)). revert V. vm_compute. intros V. apply V. reflexivity.
Qed.
Print Assumptions C82_expired_refuted.

(** ** C83: the chain walk ends and follows no NULL pointer *)
Fixpoint linked (sg : nat -> option nat) (l : list nat) (x : nat) : Prop :=
  match l with [] => True | y :: l' => sg y = Some (hd x l') /\ linked sg l' x end.
Lemma mark_black_ok : forall x l fuel st, linked (v_signer st) l x -> ~ In x l -> (length l <= fuel)%nat ->
  exists st', mark_black fuel (Some (hd x l)) x st = Some st'.
Proof.
  intros x. induction l as [|y l IH]; intros fuel st L N F.
  - cbn [hd]. destruct fuel; cbn [mark_black]; rewrite Nat.eqb_refl; eauto.
  - destruct L as [L1 L2]. destruct fuel as [|f]; [cbn in F; lia|]. cbn [hd mark_black].
    destruct (Nat.eqb_spec y x) as [->|]; [exfalso; apply N; left; auto|]. rewrite L1.
    apply IH; [exact L2|intros I; apply N; right; auto|cbn in F; lia].
Qed.
Lemma linked_snoc : forall sg l x p, linked sg l x -> ~ In x l -> linked (fset sg x (Some p)) (l ++ [x]) p.
Proof.
  induction l as [|y l IH]; intros x p L N; cbn [app linked].
  - unfold fset. rewrite Nat.eqb_refl. split; auto.
  - destruct L as [L1 L2]. split.
    + unfold fset. destruct (Nat.eqb_spec y x) as [->|]; [exfalso; apply N; left; auto|]. rewrite L1. destruct l; reflexivity.
    + apply IH; auto. intros I. apply N. right. auto.
Qed.
Lemma hd_snoc : forall (l : list nat) x p, hd p (l ++ [x]) = hd x l.
Proof. destruct l; reflexivity. Qed.
Lemma loop_ends : forall av ch clock H chain trust x0 start fuel i x st vis,
  NoDup (vis ++ [x]) -> incl (vis ++ [x]) (x0 :: chain) -> (forall y, In y vis -> v_seen st y = true) ->
  (S (length chain) <= fuel + length vis)%nat ->
  (start = None \/ (start = Some (hd x vis) /\ linked (v_signer st) vis x)) ->
  exists r, chain_loop av ch clock H chain trust start fuel i x st = Some r.
Proof.
  intros av ch clock H chain trust x0 start. induction fuel as [|fuel IH]; intros i x st vis ND IN SE F ST.
  { apply NoDup_incl_length with (l' := x0 :: chain) in ND; [|exact IN]. rewrite app_length in ND. cbn [length] in ND. lia. }
  assert (NX : ~ In x vis).
  { intros I. apply NoDup_remove_2 in ND. rewrite app_nil_r in ND. auto. }
  assert (LV : (length vis <= length chain)%nat).
  { apply NoDup_incl_length with (l' := x0 :: chain) in ND; [|exact IN]. rewrite app_length in ND. cbn [length] in ND. lia. }
  cbn [chain_loop]. cbv zeta.
  destruct (v_black _ x).
  { destruct start as [s0|]; [|eauto]. destruct ST as [ST|[ST L]]; [discriminate|]. injection ST as ->.
    match goal with |- context [mark_black ?f (Some ?p) ?y ?s] => destruct (mark_black_ok y vis f s) as (st'&E) end.
    - exact L.
    - exact NX.
    - lia.
    - rewrite E. eauto. }
  destruct (_ <? 0); [eauto|]. destruct (_ =? POL_TRUE); [destruct (c_unsupported _); eauto|].
  destruct (find_issuer H chain _ _) as [[p chk]|] eqn:FI.
  - apply find_issuer_in in FI. destruct (_ && _); [eauto|].
    destruct (v_seen _ p) eqn:SP; [eauto|]. cbn [v_seen set_seen] in SP.
    destruct (_ <? 0); [eauto|]. destruct (negb _); [eauto|]. destruct (_ <? 0); [eauto|].
    destruct (_ =? POL_TRUE).
    { destruct trust; [destruct (find_asymmetric_key _ _ _ _)|]; eauto. }
    destruct (_ <? 0); [eauto|].
    assert (PX : p <> x) by (intros ->; unfold fset in SP; rewrite Nat.eqb_refl in SP; discriminate).
    assert (PV : ~ In p vis).
    { intros I. apply SE in I. unfold fset in SP. destruct (Nat.eqb_spec p x); congruence. }
    apply (IH (S i) p _ (vis ++ [x])).
    + apply NoDup_rev in ND. rewrite <- (rev_involutive ((vis ++ [x]) ++ [p])). apply NoDup_rev. rewrite rev_app_distr.
      apply NoDup_cons; [|exact ND]. rewrite <- in_rev. rewrite in_app_iff. intros [I|[I|[]]]; [auto|congruence].
    + intros y I. apply in_app_iff in I. destruct I as [I|[<-|[]]]; [apply IN; exact I|right; exact FI].
    + intros y I. cbn [v_seen set_signer set_seen]. unfold fset. destruct (Nat.eqb_spec y x); [reflexivity|].
      apply in_app_iff in I. destruct I as [I|[<-|[]]]; [apply SE; exact I|congruence].
    + rewrite app_length. cbn [length]. lia.
    + destruct ST as [ST|[ST L]]; [left; exact ST|right]. split; [rewrite hd_snoc; exact ST|].
      cbn [v_signer set_signer set_seen]. apply linked_snoc; auto.
  - destruct (find_asymmetric_key _ _ _ _); eauto.
Qed.
Lemma chain_ends : forall av ch clock H chain trust start x st, start = None \/ start = Some x ->
  exists r, verify_sig_chain av ch clock H chain trust start x st = Some r.
Proof.
  intros av ch clock H chain trust start x st ST. unfold verify_sig_chain.
  apply (loop_ends av ch clock H chain trust x start (S (length chain)) 0 x _ []).
  - cbn. constructor; [auto|constructor].
  - intros y [<-|[]]. left. reflexivity.
  - intros y [].
  - cbn. lia.
  - destruct ST as [ST|ST]; [left; exact ST|right]. cbn. auto.
Qed.
(** Whatever certificates a message carries and however they refer to each
    other, the walk makes at most one step more than there are certificates
    and ends with a return code; so do the two API functions. *)
Theorem C83_terminates : forall av ch hash clock H certs ok data trust rl l st,
  exists r, lc_pkcs7_verify av ch hash clock H certs ok data trust rl l st = Some r.
Proof.
  intros av ch hash clock H certs ok data trust rl l st. unfold lc_pkcs7_verify. destruct (negb ok); [eauto|].
  destruct data as [d|]; [|eauto]. generalize ENOKEY at 1. revert st. induction l as [|s l IH]; intros st cached; [cbn; eauto|].
  cbn [verify_all].
  assert (V1 : exists r, verify_one av ch hash clock H certs d trust rl s st = Some r).
  { unfold verify_one. destruct (pkcs7_digest hash d s) as [r s']. destruct (r <? 0); [eauto|].
    destruct (find_key H certs s') as [g|]; [|eauto]. destruct (_ && _); [eauto|].
    destruct (match rl with Some r => r | None => (0, 0) end) as [ku eku].
    cbv zeta. destruct (_ <? 0); [eauto|]. destruct (negb _); [eauto|]. destruct (_ <? 0); [eauto|]. destruct (negb _); [eauto|].
    destruct (_ <? 0); [eauto|]. destruct (chain_ends av ch clock H certs trust (Some g) g st) as ([r' st']&E); [right; reflexivity|].
    rewrite E. eauto. }
  destruct V1 as ([[r s'] st']&E). rewrite E. cbv zeta.
  assert (G : forall c, exists r0, match verify_all av ch hash clock H certs d trust rl l c st' with
                   | None => None | Some (r, l, st) => Some (r, s' :: l, st) end = Some r0).
  { intros c. destruct (IH st' c) as ([[a b] e]&E2). rewrite E2. eauto. }
  destruct (r =? ENOKEY); [apply G|]. destruct (r =? ENOPKG); [apply G|]. destruct (r =? 0); [apply G|]. eauto.
Qed.
Print Assumptions C83_terminates.
Theorem C83_add_terminates : forall av ch clock H t anchors x st,
  members (S (length anchors)) (t_next t) (t_head t) = Some anchors -> NoDup anchors -> ~ In x anchors ->
  exists r, trust_store_add av ch clock H t anchors x st = Some r.
Proof.
  intros av ch clock H t anchors x st M ND NI. apply members_links in M. destruct M as [ML MH].
  assert (LK : forall st : vstate, exists r, (let next := fset (t_next t) x None in
      match t_head t with
      | None => Some (0, {| t_head := Some x; t_next := next |}, st)
      | Some h => match append_loop (S (length anchors)) x next (Some h) with
                  | None => None
                  | Some next => Some (0, {| t_head := Some h; t_next := next |}, st)
                  end
      end) = Some r).
  { intros s. cbv zeta. rewrite MH. destruct anchors as [|h anchors]; cbn [hd_error]; [eauto|].
    destruct (append_ok (h :: anchors) x (fset (t_next t) x None) (S (length (h :: anchors)))) as (nx&A&B); auto; try discriminate.
    - clear - ML NI. revert ML NI. generalize (h :: anchors). induction l as [|a l IH]; intros A B; [exact Logic.I|].
      assert (F : fset (t_next t) x None a = t_next t a).
      { unfold fset. destruct (Nat.eqb_spec a x) as [->|]; [exfalso; apply B; left; auto|reflexivity]. }
      destruct l as [|b l]; cbn [last_next] in *; rewrite F; [exact A|]. split; [tauto|]. apply IH; [tauto|].
      intros I. apply B. right. exact I.
    - unfold fset. rewrite Nat.eqb_refl. reflexivity.
    - cbn [hd_error] in A. rewrite A. eauto. }
  unfold trust_store_add. destruct (_ <? 0); [eauto|]. destruct (_ =? POL_TRUE); [apply LK|].
  destruct (_ <? 0); [eauto|]. destruct (negb _); [eauto|].
  destruct (chain_ends av ch clock H anchors None None x st) as ([r' st']&E); [left; reflexivity|]. rewrite E.
  destruct (r' <? 0); [eauto|]. apply LK.
Qed.
Print Assumptions C83_add_terminates.
(** two certificates that name each other as issuer: the walk stops *)
Definition H_loop (n : nat) : cert :=
  match n with
  | 0%nat => mkcert 100 101 100 [10] [11] 0 usage_sign false
  | _ => mkcert 101 100 101 [11] [10] 0 usage_sign false
  end.
Example C83_terminates_ex : exists l' st',
  lc_pkcs7_verify toy_verify toy_check toy_hash no_clock H_loop [0%nat; 1%nat] true (Some [1]) (Some [])
    None [mksinfo (H_loop 0) 100 [1]] st0 = Some (EKEYREJECTED, l', st').
Proof. eexists. eexists. vm_compute. reflexivity. Qed.

(** ** C84: what is signed, and calling the function twice *)
(** On a freshly parsed message a successful digest step means: without
    attributes the signed digest is that of the content; with attributes the
    messageDigest attribute equals the digest of the content and the signed
    digest is that of the attributes as a SET. *)
Theorem C84_content_partial : forall hash data s s',
  (forall h m, bytes (hash h m)) -> (forall md, si_msgdigest s = Some md -> bytes md) ->
  s_digest (si_sig s) = [] -> pkcs7_digest hash data s = (0, s') ->
  exists h, s_hash (si_sig s) = Some h /\
    match si_authattrs s with
    | None => s_digest (si_sig s') = hash h data
    | Some aa => si_msgdigest s = Some (hash h data) /\ s_digest (si_sig s') = hash h (0x31 :: aa)
    end.
Proof.
  intros hash data s s' HB MB D E. unfold pkcs7_digest in E. rewrite D in E.
  destruct (s_hash (si_sig s)) as [h|]; [|discriminate]. exists h. split; [reflexivity|]. cbv zeta in E.
  destruct (si_authattrs s) as [aa|].
  - destruct (si_msgdigest s) as [md|]; [|discriminate]. destruct (negb _) in E; [discriminate|].
    destruct (cmp_eq (hash h data) md) eqn:C; cbn [negb] in E; [|discriminate]. injection E as <-.
    apply cmp_eq_iff in C; [|apply HB|apply MB; reflexivity]. subst md. split; reflexivity.
  - injection E as <-. reflexivity.
Qed.
Print Assumptions C84_content_partial.
Definition attr_sinfo (md : list Z) (signed : list Z) : sinfo :=
  {| si_sig := {| s_s := Some ([102] ++ signed); s_digest := []; s_hash := Some 1; s_algo := SIG_DILITHIUM_65;
                  s_raw := None; s_auth0 := c_id (H_good 2); s_auth1 := kid0 |};
     si_has_time := false; si_time := 0; si_msgdigest := Some md; si_authattrs := Some [9; 9] |}.
Example C84_content_partial_ex :
  fst (pkcs7_digest toy_hash [1; 2] (attr_sinfo (toy_hash 1 [1; 2]) [])) = 0 /\
  fst (pkcs7_digest toy_hash [1; 3] (attr_sinfo (toy_hash 1 [1; 2]) [])) = EKEYREJECTED.
Proof. vm_compute. auto. Qed.
(** "Verifying the same message twice gives the same answer" is false: a
    message refused because its messageDigest attribute does not match its
    content is accepted by a second call. *)
Theorem C84_twice_refuted : exists s l1 st1 l2 st2 data,
  si_msgdigest s <> Some (toy_hash 1 data) /\ si_authattrs s <> None /\
  lc_pkcs7_verify toy_verify toy_check toy_hash no_clock H_good [2%nat; 1%nat] true (Some data) (Some [0%nat]) None [s] st0 =
    Some (EKEYREJECTED, l1, st1) /\
  lc_pkcs7_verify toy_verify toy_check toy_hash no_clock H_good [2%nat; 1%nat] true (Some data) (Some [0%nat]) None l1 st1 =
    Some (0, l2, st2).
Proof.
  exists (attr_sinfo (toy_hash 1 [1; 2]) (toy_hash 1 [1; 3])). do 4 eexists. exists [1; 3].
  split; [vm_compute; discriminate|]. split; [discriminate|]. split; [vm_compute; reflexivity|]. vm_compute. reflexivity.
Qed.
Print Assumptions C84_twice_refuted.
