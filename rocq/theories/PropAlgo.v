(** * C97: algorithm identifiers; C88 continued: extended key usage; C80 continued: dispatch *)
From Coq Require Import ZArith List Lia Bool Ascii String.
Import ListNotations.
From Verif Require Import Bytes OidTables OidSpec X509Model AlgoModel.
From Verif Require OidModel PropOid PropPkcs7b.
Open Scope Z_scope.
Local Open Scope list_scope.

(** ** The standards: NIST CSOR and the composite signature draft *)
Definition nist (n : Z) (tail : list Z) : list Z := [2; 16; 840; 1; 101; 3; 4; n] ++ tail.
(** signature algorithm: arcs, number in enum lc_sig_types, and the name
    expected *)
Definition std_sigs : list (list Z * Z * string) :=
  [(nist 3 [17], 1, "ML-DSA44"); (nist 3 [18], 2, "ML-DSA65"); (nist 3 [19], 3, "ML-DSA87");
   ([2; 16; 840; 1; 114027; 80; 8; 1; 23], 4, "ML-DSA44-ED25519"); ([2; 16; 840; 1; 114027; 80; 8; 1; 30], 5, "ML-DSA65-ED25519");
   (nist 3 [30], 8, "SLH-DSA-SHAKE-256S"); (nist 3 [31], 9, "SLH-DSA-SHAKE-256F");
   (nist 3 [28], 10, "SLH-DSA-SHAKE-192S"); (nist 3 [29], 11, "SLH-DSA-SHAKE-192F");
   (nist 3 [26], 12, "SLH-DSA-SHAKE-128S"); (nist 3 [27], 13, "SLH-DSA-SHAKE-128F")]%string.
Definition std_hashes : list (list Z * halgo * string) :=
  [(nist 2 [1], H_sha256, "SHA2-256"); (nist 2 [2], H_sha384, "SHA2-384"); (nist 2 [3], H_sha512, "SHA2-512");
   (nist 2 [8], H_sha3_256, "SHA3-256"); (nist 2 [9], H_sha3_384, "SHA3-384"); (nist 2 [10], H_sha3_512, "SHA3-512");
   (nist 2 [11], H_shake128, "SHAKE128"); (nist 2 [12], H_shake256, "SHAKE256")]%string.
(** collision resistance in bits, for the digest sizes the library uses *)
Definition strength (h : halgo) : Z :=
  match h with
  | H_sha256 | H_sha3_256 | H_shake128 => 128
  | H_sha384 | H_sha3_384 => 192
  | H_sha512 | H_sha3_512 | H_shake256 => 256
  | H_other => 0
  end.
(** what the digest has to offer for a signature algorithm: its security
    level; 256 for the composites with Ed25519 (PH is SHA-512 or better) *)
Definition needed (a : Z) : option Z :=
  if (a =? 1) || (a =? 12) || (a =? 13) then Some 128
  else if (a =? 2) || (a =? 10) || (a =? 11) then Some 192
  else if (a =? 3) || (a =? 8) || (a =? 9) then Some 256
  else if (4 <=? a) && (a <=? 6) then Some 256
  else None.

(** A digest is allowed with a signature algorithm exactly when it is strong
    enough for it; nothing is allowed with an algorithm that is not
    implemented. *)
Theorem C97_check_hash : forall a h, 0 <= a < 2 ^ 32 ->
  sig_check_hash a (Some h) = 0 \/ sig_check_hash a (Some h) = -65.
Proof.
  intros a h _. unfold sig_check_hash. cbv zeta. repeat match goal with |- context [if ?b then _ else _] => destruct b end; auto.
Qed.
Theorem C97_strength : forall a h, 0 <= a < 2 ^ 32 -> h <> H_other ->
  (sig_check_hash a (Some h) = 0 <-> exists n, needed a = Some n /\ n <= strength h).
Proof.
  intros a h A O.
  assert (S : forall a, 0 <= a < 14 -> (sig_check_hash a (Some h) = 0 <-> exists n, needed a = Some n /\ n <= strength h)).
  { clear a A. intros a A.
    assert (B : forallb (fun a => forallb (fun h => Bool.eqb (sig_check_hash a (Some h) =? 0)
        (match needed a with Some n => n <=? strength h | None => false end))
        [H_sha256; H_sha384; H_sha512; H_sha3_256; H_sha3_384; H_sha3_512; H_shake128; H_shake256])
        [0; 1; 2; 3; 4; 5; 6; 7; 8; 9; 10; 11; 12; 13] = true) by (vm_compute; reflexivity).
    rewrite forallb_forall in B. assert (IA : In a [0; 1; 2; 3; 4; 5; 6; 7; 8; 9; 10; 11; 12; 13]) by (cbn [In]; lia).
    specialize (B a IA). rewrite forallb_forall in B.
    assert (IH : In h [H_sha256; H_sha384; H_sha512; H_sha3_256; H_sha3_384; H_sha3_512; H_shake128; H_shake256]) by (destruct h; cbn [In]; tauto).
    specialize (B h IH). apply Bool.eqb_prop in B. rewrite <- Z.eqb_eq, B. destruct (needed a) as [n|].
    - rewrite Z.leb_le. split; [intros L; exists n; auto|]. intros (m&E&L). injection E as <-. exact L.
    - split; [discriminate|]. intros (m&E&_). discriminate. }
  destruct (Z.ltb_spec a 14) as [L|L]; [apply S; lia|].
  unfold sig_check_hash, needed. unfold SIG_SPHINCS_128F, SIG_SPHINCS_128S, SIG_DILITHIUM_44, SIG_SPHINCS_192F, SIG_SPHINCS_192S,
    SIG_DILITHIUM_65, SIG_SPHINCS_256F, SIG_SPHINCS_256S, SIG_DILITHIUM_87, SIG_DILITHIUM_44_ED25519,
    SIG_DILITHIUM_65_ED25519, SIG_DILITHIUM_87_ED25519.
  repeat match goal with |- context [a =? ?n] => destruct (Z.eqb_spec a n); [lia|] end. cbn [orb].
  destruct (Z.leb_spec 4 a); [|lia]. destruct (Z.leb_spec a 6); [lia|]. cbn [andb].
  split; [discriminate|]. intros (n'&X&_). discriminate.
Qed.
Print Assumptions C97_strength.
Example C97_strength_ex : sig_check_hash SIG_DILITHIUM_65 (Some H_sha384) = 0 /\ sig_check_hash SIG_DILITHIUM_65 (Some H_sha256) = -65 /\
  sig_check_hash SIG_SPHINCS_128S (Some H_sha256) = 0.
Proof. vm_compute. auto. Qed.

(** An object identifier as it stands in a certificate is mapped to its
    signature algorithm, back to the object identifier, to its name, and the
    name to the algorithm.  The digest taken by default is strong enough. *)
Theorem C97_sigs : forall arcs a name, In (arcs, a, name) std_sigs ->
  exists o h, OidModel.look_up_OID (enc_oid arcs) = Some o /\ oid_to_sig_type o = (0, Some a) /\ sig_type_to_oid a = (0, Some o) /\
    OidModel.OID_to_data o = Some (0, enc_oid arcs) /\
    sig_type_to_name a = name /\ oid_to_name o = name /\ name_to_algorithm (Some name) = (0, Some a) /\
    sig_type_to_hash a = (0, Some h) /\ sig_check_hash a (Some h) = 0.
Proof.
  assert (A : forallb (fun p => let '(arcs, a, name) := p in
     match OidModel.look_up_OID (enc_oid arcs) with
     | Some o => match oid_to_sig_type o, sig_type_to_oid a, name_to_algorithm (Some name), sig_type_to_hash a with
                 | (0, Some x), (0, Some y), (0, Some z), (0, Some h) =>
                     (x =? a) && (y =? o) && (z =? a) && String.eqb (sig_type_to_name a) name && String.eqb (oid_to_name o) name &&
                     (sig_check_hash a (Some h) =? 0) &&
                     match OidModel.OID_to_data o with Some (0, d) => if list_eq_dec Z.eq_dec d (enc_oid arcs) then true else false | _ => false end
                 | _, _, _, _ => false
                 end
     | None => false
     end) std_sigs = true) by (vm_compute; reflexivity).
  rewrite forallb_forall in A. intros arcs a name I. specialize (A _ I). cbv beta iota zeta in A.
  destruct (OidModel.look_up_OID (enc_oid arcs)) as [o|]; [|discriminate].
  destruct (oid_to_sig_type o) as [[| |] [x|]] eqn:E1; try discriminate. destruct (sig_type_to_oid a) as [[| |] [y|]] eqn:E2; try discriminate.
  destruct (name_to_algorithm (Some name)) as [[| |] [z|]] eqn:E3; try discriminate.
  destruct (sig_type_to_hash a) as [[| |] [h|]] eqn:E4; try discriminate.
  repeat (apply andb_prop in A; let B := fresh "B" in destruct A as [A B]).
  destruct (OidModel.OID_to_data o) as [[[| |] d]|] eqn:E5; try discriminate. destruct (list_eq_dec Z.eq_dec d (enc_oid arcs)); [|discriminate]. subst d.
  apply Z.eqb_eq in A. apply Z.eqb_eq in B0. apply Z.eqb_eq in B3. apply Z.eqb_eq in B4. apply String.eqb_eq in B1. apply String.eqb_eq in B2.
  exists o, h. repeat (split; [congruence|]). assumption.

Qed.
Print Assumptions C97_sigs.
Theorem C97_hashes : forall arcs h name, In (arcs, h, name) std_hashes ->
  exists o, OidModel.look_up_OID (enc_oid arcs) = Some o /\ oid_to_hash o = (0, Some h) /\ hash_to_oid h = (0, o) /\
    OidModel.OID_to_data o = Some (0, enc_oid arcs) /\ name_to_hash (Some name) = (0, Some h) /\ hash_to_name h = name.
Proof.
  assert (HE : forall a b, halgo_eqb a b = true -> a = b) by (intros [] []; intros; try reflexivity; discriminate).
  assert (A : forallb (fun p => let '(arcs, h, name) := p in
     match OidModel.look_up_OID (enc_oid arcs) with
     | Some o => match oid_to_hash o, hash_to_oid h, name_to_hash (Some name) with
                 | (0, Some x), (0, y), (0, Some z) =>
                     halgo_eqb x h && (y =? o) && halgo_eqb z h && String.eqb (hash_to_name h) name &&
                     match OidModel.OID_to_data o with Some (0, d) => if list_eq_dec Z.eq_dec d (enc_oid arcs) then true else false | _ => false end
                 | _, _, _ => false
                 end
     | None => false
     end) std_hashes = true) by (vm_compute; reflexivity).
  rewrite forallb_forall in A. intros arcs a name I. specialize (A _ I). cbv beta iota zeta in A.
  destruct (OidModel.look_up_OID (enc_oid arcs)) as [o|]; [|discriminate].
  destruct (oid_to_hash o) as [[| |] [x|]] eqn:E1; try discriminate. destruct (hash_to_oid a) as [[| |] y] eqn:E2; try discriminate.
  destruct (name_to_hash (Some name)) as [[| |] [z|]] eqn:E3; try discriminate.
  repeat (apply andb_prop in A; let B := fresh "B" in destruct A as [A B]).
  destruct (OidModel.OID_to_data o) as [[[| |] d]|] eqn:E5; try discriminate. destruct (list_eq_dec Z.eq_dec d (enc_oid arcs)); [|discriminate]. subst d.
  apply HE in A. apply HE in B1. apply Z.eqb_eq in B2. apply String.eqb_eq in B0.
  exists o. repeat (split; [congruence|]). congruence.
Qed.
Print Assumptions C97_hashes.

(** Nothing else is taken for one of these algorithms. *)
Theorem C97_only : forall o a, oid_to_sig_type o = (0, Some a) -> 1 <= a <= 13 ->
  (exists arcs name, In (arcs, a, name) std_sigs /\ OidModel.OID_to_data o = Some (0, enc_oid arcs)) \/
  (a = 7 /\ OidModel.OID_to_data o = Some (0, enc_oid [2; 16; 840; 1; 114027; 80; 8; 1; 33])).
Proof.
  intros o a E A. unfold oid_to_sig_type in E. destruct (find _ x509_algo_table) as [r|] eqn:F; [|discriminate].
  injection E as <-. apply find_some in F. destruct F as [F Q]. apply Z.eqb_eq in Q. subst o.
  assert (C : forallb (fun r => negb ((1 <=? r_algo r) && (r_algo r <=? 13)) ||
     match OidModel.OID_to_data (r_oid r) with
     | Some (0, d) =>
         existsb (fun p => let '(arcs, a, _) := p in (r_algo r =? a) && if list_eq_dec Z.eq_dec d (enc_oid arcs) then true else false) std_sigs ||
         ((r_algo r =? 7) && if list_eq_dec Z.eq_dec d (enc_oid [2; 16; 840; 1; 114027; 80; 8; 1; 33]) then true else false)
     | _ => false
     end) x509_algo_table = true) by (vm_compute; reflexivity).
  rewrite forallb_forall in C. specialize (C _ F). apply orb_prop in C. destruct C as [C|C].
  { destruct (Z.leb_spec 1 (r_algo r)); [|lia]. destruct (Z.leb_spec (r_algo r) 13); [discriminate|lia]. }
  destruct (OidModel.OID_to_data (r_oid r)) as [[[| |] d]|]; try discriminate. apply orb_prop in C. destruct C as [C|C].
  - left. apply existsb_exists in C. destruct C as [[[arcs a] name] [I C]]. apply andb_prop in C. destruct C as [C D].
    apply Z.eqb_eq in C. destruct (list_eq_dec Z.eq_dec d (enc_oid arcs)); [|discriminate]. subst. exists arcs, name. auto.
  - right. apply andb_prop in C. destruct C as [C D]. apply Z.eqb_eq in C.
    destruct (list_eq_dec Z.eq_dec d _); [|discriminate]. subst. auto.
Qed.
Print Assumptions C97_only.
Lemma strncmp_all : forall a b, String.length a = String.length b -> strncmp_eq (String.length a) a b = true -> a = b.
Proof.
  induction a as [|x a IH]; intros [|y b] L E; try reflexivity; try discriminate L. cbn in E.
  apply andb_prop in E. destruct E as [E F]. apply Ascii.eqb_eq in E. subst y. f_equal. apply IH; [cbn in L; lia|exact F].
Qed.
(** A name is accepted only as a whole, and then only for its algorithm. *)
Theorem C97_names : forall name a, name_to_algorithm (Some name) = (0, Some a) -> 1 <= a <= 13 -> a <> 7 ->
  exists arcs, In (arcs, a, name) std_sigs.
Proof.
  intros name a E A N. unfold name_to_algorithm in E. destruct (find _ x509_algo_table) as [r|] eqn:F; [|discriminate].
  injection E as <-. apply find_some in F. destruct F as [F Q]. apply andb_prop in Q. destruct Q as [Q1 Q2]. apply Z.eqb_eq in Q1.
  assert (C : forallb (fun r => (r_namelen r =? strlen (r_name r)) && (negb ((1 <=? r_algo r) && (r_algo r <=? 13) && negb (r_algo r =? 7)) ||
     existsb (fun p => let '(_, a, name) := p in (r_algo r =? a) && String.eqb name (r_name r)) std_sigs)) x509_algo_table = true)
    by (vm_compute; reflexivity).
  rewrite forallb_forall in C. specialize (C _ F). apply andb_prop in C. destruct C as [L C]. apply Z.eqb_eq in L.
  unfold strlen in *. rewrite Nat2Z.id in Q2. apply strncmp_all in Q2; [|lia]. subst name.
  apply orb_prop in C. destruct C as [C|C].
  { destruct (Z.leb_spec 1 (r_algo r)); [|lia]. destruct (Z.leb_spec (r_algo r) 13); [|lia]. destruct (Z.eqb_spec (r_algo r) 7); [contradiction|discriminate]. }
  apply existsb_exists in C. destruct C as [[[arcs a] name] [I C]]. apply andb_prop in C. destruct C as [C D].
  apply Z.eqb_eq in C. apply String.eqb_eq in D. exists arcs. rewrite C, <- D. exact I.
Qed.
Print Assumptions C97_names.

(** "Every signature type of the API has a table entry, its own name, and
    comes back from its identifier" is false: ML-DSA-87 with Ed25519, which
    verification supports, has no identifier and no name; ML-DSA-87 with Ed448
    is called ML-DSA44-ED448; the type of sha512WithRSAEncryption is encoded
    as RSA with SHA3-256; a digest that is not known is mapped to the number
    OID__NR with success. *)
Theorem C97_tables_refuted :
  (sig_type_to_oid SIG_DILITHIUM_87_ED25519 = (-65, None) /\ sig_type_to_name SIG_DILITHIUM_87_ED25519 = "<not found>"%string /\
   sig_check_hash SIG_DILITHIUM_87_ED25519 (Some H_sha512) = 0 /\
   exists av ch pk s, pk_algo pk = SIG_DILITHIUM_87_ED25519 /\ verify_signature av ch pk s = 0) /\
  (sig_type_to_name SIG_DILITHIUM_87_ED448 = "ML-DSA44-ED448"%string /\ name_to_algorithm (Some "ML-DSA87-ED448"%string) = (-65, None)) /\
  (exists o p, oid_to_sig_type o = (0, Some 14) /\ sig_type_to_oid 14 = (0, Some p) /\ o <> p /\
     OidModel.OID_to_data o = Some (0, enc_oid [1; 2; 840; 113549; 1; 1; 13]) /\
     OidModel.OID_to_data p = Some (0, enc_oid [2; 16; 840; 1; 101; 3; 4; 3; 14])) /\
  (exists o, hash_to_oid H_other = (0, o) /\ OidModel.OID_to_data o = Some (EFAULT, [])).
Proof.
  split; [|split; [|split]].
  - do 3 (split; [vm_compute; reflexivity|]).
    exists (fun _ _ _ => 0), (fun _ _ => 0), {| pk_key := []; pk_algo := 6; pk_usage := 0; pk_eku := 0; pk_pathlen := 0 |},
      {| s_s := Some []; s_digest := []; s_hash := None; s_algo := 6; s_raw := None; s_auth0 := kid0; s_auth1 := kid0 |}.
    split; vm_compute; reflexivity.
  - split; vm_compute; reflexivity.
  - exists OID_sha512WithRSAEncryption, OID_id_rsassa_pkcs1_v1_5_with_sha3_256. split; [vm_compute; reflexivity|].
    split; [vm_compute; reflexivity|]. split; [discriminate|]. split; vm_compute; reflexivity.
  - eexists. split; vm_compute; reflexivity.
Qed.
Print Assumptions C97_tables_refuted.

(** ** C97: signature verification is dispatched by the key's algorithm *)
Theorem C97_dispatch : forall av ch pk s, 0 <= s_algo s -> 0 <= verify_signature av ch pk s ->
  exists sg k, s_s s = Some sg /\ (s_algo s = 0 \/ s_algo s = pk_algo pk) /\
    (forall h, s_hash s = Some h -> 0 <= ch (pk_algo pk) h) /\ PropPkcs7b.family (pk_algo pk) = Some k /\ 0 <= av k pk s.
Proof. exact PropPkcs7b.dispatch. Qed.
Print Assumptions C97_dispatch.
Theorem C97_dispatch_complete : forall av ch pk s sg k, s_s s = Some sg -> s_algo s = pk_algo pk ->
  (forall h, s_hash s = Some h -> ch (pk_algo pk) h = 0) -> PropPkcs7b.family (pk_algo pk) = Some k ->
  verify_signature av ch pk s = av k pk s.
Proof.
  intros av ch pk s sg k S A H F. unfold verify_signature. rewrite S, A, Z.eqb_refl, andb_false_r.
  assert (C : match s_hash s with Some h => ch (pk_algo pk) h | None => 0 end = 0) by (destruct (s_hash s); auto). rewrite C. cbn iota.
  change (0 <? 0) with false. cbn iota.
  unfold PropPkcs7b.family in F. set (a := pk_algo pk) in *.
  assert (X : a = 1 \/ a = 2 \/ a = 3 \/ a = 4 \/ a = 5 \/ a = 6 \/ a = 8 \/ a = 9 \/ a = 10 \/ a = 11 \/ a = 12 \/ a = 13).
  { destruct (Z.leb_spec 1 a); destruct (Z.leb_spec a 3); cbn [andb] in F; [lia| | |];
      destruct (Z.leb_spec 4 a); destruct (Z.leb_spec a 6); cbn [andb] in F; try lia;
      repeat match type of F with context [a =? ?n] => destruct (Z.eqb_spec a n); [lia|] end; discriminate. }
  clearbody a. clear - F X.
  repeat (destruct X as [->|X]; [injection F as <-; reflexivity|]). subst a. injection F as <-. reflexivity.
Qed.
Print Assumptions C97_dispatch_complete.
Example C97_dispatch_ex : PropPkcs7b.family SIG_SPHINCS_128S = Some 4 /\ PropPkcs7b.family SIG_SPHINCS_192F = Some 3 /\
  PropPkcs7b.family SIG_DILITHIUM_87_ED448 = None.
Proof. vm_compute. auto. Qed.

(** ** C88: extended key usage *)
(** RFC 5280 4.2.1.12: the purposes, and the flag each is given *)
Definition std_purposes : list (list Z * Z) :=
  [([2; 5; 29; 37; 0], 3); ([1; 3; 6; 1; 5; 5; 7; 3; 1], 4); ([1; 3; 6; 1; 5; 5; 7; 3; 2], 5); ([1; 3; 6; 1; 5; 5; 7; 3; 3], 6);
   ([1; 3; 6; 1; 5; 5; 7; 3; 4], 7); ([1; 3; 6; 1; 5; 5; 7; 3; 8], 8); ([1; 3; 6; 1; 5; 5; 7; 3; 9], 9)].
(** what x509_eku passes on for the contents of one OBJECT IDENTIFIER *)
Definition purpose_of (v : list Z) : option Z :=
  match OidModel.look_up_OID v with Some o => oid_to_eku o | None => None end.
Lemma purpose_ok : forall arcs i, In (arcs, i) std_purposes -> purpose_of (enc_oid arcs) = Some (2 ^ i) /\ 3 <= i <= 9.
Proof.
  assert (A : forallb (fun p => match purpose_of (enc_oid (fst p)) with Some e => (e =? 2 ^ snd p) && (3 <=? snd p) && (snd p <=? 9) | None => false end)
    std_purposes = true) by (vm_compute; reflexivity).
  rewrite forallb_forall in A. intros arcs i I. specialize (A _ I). cbn [fst snd] in A.
  destruct (purpose_of (enc_oid arcs)) as [e|]; [|discriminate]. repeat (apply andb_prop in A; let B := fresh "B" in destruct A as [A B]).
  apply Z.eqb_eq in A. subst e. split; [reflexivity|lia].
Qed.
Lemma eku_gen : forall (f : list Z -> option Z) (T : list (list Z * Z)),
  (forall a i, In (a, i) T -> f a = Some (2 ^ i) /\ 3 <= i <= 9) ->
  (forall a i j, In (a, i) T -> In (a, j) T -> i = j) ->
  forall l x, Forall (fun a => exists i, In (a, i) T) l ->
  let r := process_body x (Ext_eku (map f l)) in
  fst r = 0 /\ x_crit (snd r) = x_crit x /\ pk_usage (x_pub (snd r)) = pk_usage (x_pub x) /\ pk_pathlen (x_pub (snd r)) = pk_pathlen (x_pub x) /\
  forall i, 0 <= i -> (Z.testbit (pk_eku (x_pub (snd r))) i = true <->
    Z.testbit (pk_eku (x_pub x)) i = true \/ (exists a, In a l /\ In (a, i) T) \/
    (l <> [] /\ (i = 2 \/ i = 1 /\ x_crit x = true))).
Proof.
  intros f T OK UQ. cbv zeta. unfold process_body. induction l as [|a l IH]; intros x F.
  { cbn [map fold_left fst snd]. do 4 (split; [reflexivity|]). intros i I. split; [auto|]. intros [X|[[a [[] _]]|[X _]]]; [exact X|congruence]. }
  inversion F as [|? ? [j J] F']; subst. destruct (OK _ _ J) as [P JB].
  cbn [map fold_left]. cbn [then_]. change (0 <? 0) with false. cbn iota. rewrite P. cbn [eku_handler].
  set (x1 := {| x_crit := _; x_pub := _ |}).
  destruct (IH x1 F') as (R0&R1&R2&R3&R4). split; [exact R0|]. split; [rewrite R1; reflexivity|]. split; [rewrite R2; reflexivity|]. split; [rewrite R3; reflexivity|].
  intros i I. rewrite (R4 i I). clear R0 R1 R2 R3 R4 IH. cbn [x1 x_crit x_pub set_eku pk_eku]. rewrite !Z.lor_spec, !orb_true_iff.
  rewrite Z.pow2_bits_eqb by lia. rewrite Z.eqb_eq.
  assert (C1 : Z.testbit (if x_crit x then EKU_CRITICAL else 0) i = true <-> i = 1 /\ x_crit x = true).
  { destruct (x_crit x); [|rewrite Z.bits_0; split; [discriminate|intros [_ X]; discriminate]]. change EKU_CRITICAL with (2 ^ 1). rewrite Z.pow2_bits_eqb by lia.
    rewrite Z.eqb_eq. split; intros; [split; [lia|reflexivity]|lia]. }
  assert (C2 : Z.testbit EKU_PRESENT i = true <-> i = 2).
  { change EKU_PRESENT with (2 ^ 2). rewrite Z.pow2_bits_eqb by lia. rewrite Z.eqb_eq. lia. }
  rewrite C1, C2. split.
  - intros [[[[X|X]|X]|X]|[[b [B1 B2]]|[X Y]]].
    + auto.
    + right. left. exists a. subst i. split; [left; reflexivity|exact J].
    + right. right. split; [discriminate|auto].
    + right. right. split; [discriminate|auto].
    + right. left. exists b. split; [right; exact B1|exact B2].
    + right. right. split; [discriminate|exact Y].
  - intros [X|[[b [[B1|B1] B2]]|[_ [X|X]]]]; auto 8.
    + subst b. left. left. left. right. exact (UQ _ _ _ J B2).
    + right. left. exists b. auto.
Qed.
(** An extended key usage extension listing any number of the known purposes
    sets exactly their flags, the presence flag, and the criticality flag when
    it was critical; earlier flags stay. *)
Theorem C88_eku : forall x l, Forall (fun a => exists i, In (a, i) std_purposes) l ->
  let r := process_body x (Ext_eku (map (fun a => purpose_of (enc_oid a)) l)) in
  fst r = 0 /\ x_crit (snd r) = x_crit x /\ pk_usage (x_pub (snd r)) = pk_usage (x_pub x) /\ pk_pathlen (x_pub (snd r)) = pk_pathlen (x_pub x) /\
  forall i, 0 <= i -> (Z.testbit (pk_eku (x_pub (snd r))) i = true <->
    Z.testbit (pk_eku (x_pub x)) i = true \/ (exists a, In a l /\ In (a, i) std_purposes) \/
    (l <> [] /\ (i = 2 \/ i = 1 /\ x_crit x = true))).
Proof.
  intros x l F. apply (eku_gen (fun a => purpose_of (enc_oid a)) std_purposes); [exact purpose_ok| |exact F].
  intros a i j I J.
  assert (U : forallb (fun p => forallb (fun q => negb (if list_eq_dec Z.eq_dec (fst p) (fst q) then true else false) || (snd p =? snd q)) std_purposes) std_purposes = true)
    by (vm_compute; reflexivity).
  rewrite forallb_forall in U. specialize (U _ I). rewrite forallb_forall in U. specialize (U _ J). cbn [fst snd] in U.
  destruct (list_eq_dec Z.eq_dec a a); [|congruence]. cbn [negb orb] in U. apply Z.eqb_eq in U. exact U.
Qed.
Print Assumptions C88_eku.
Example C88_eku_ex : pk_eku (x_pub (snd (process_exts {| x_crit := false; x_pub := {| pk_key := []; pk_algo := 0; pk_usage := 0; pk_eku := 0; pk_pathlen := 0 |} |}
   [{| e_crit := Some [255]; e_body := Ext_eku (map (fun a => purpose_of (enc_oid a)) [[1; 3; 6; 1; 5; 5; 7; 3; 1]; [1; 3; 6; 1; 5; 5; 7; 3; 8]]) |}])))
   = 2 + 4 + 16 + 256.
Proof. vm_compute. reflexivity. Qed.
(** "A purpose that is not known is passed over" is false: the certificate is
    refused; and the object identifier number 0 of the registry (meant for DSA with
    SHA-1) given as a purpose
    marks the extension as critical. *)
Theorem C88_eku_refuted :
  (exists x l, x_crit x = false /\ In [1; 3; 6; 1; 5; 5; 7; 3; 1] l /\ fst (process_body x (Ext_eku (map (fun a => purpose_of (enc_oid a)) l))) = -2) /\
  (exists x l r, x_crit x = false /\ pk_eku (x_pub x) = 0 /\ process_body x (Ext_eku (map (fun a => purpose_of (enc_oid a)) l)) = (0, r) /\
     Z.testbit (pk_eku (x_pub r)) 1 = true).
Proof.
  set (x := {| x_crit := false; x_pub := {| pk_key := []; pk_algo := 0; pk_usage := 0; pk_eku := 0; pk_pathlen := 0 |} |}).
  split.
  - exists x, [[1; 3; 6; 1; 5; 5; 7; 3; 1]; [1; 3; 6; 1; 5; 5; 7; 3; 17]]. split; [reflexivity|]. split; [left; reflexivity|]. vm_compute. reflexivity.
  - exists x, [[1; 2; 840; 10030; 4; 3]]. eexists. split; [reflexivity|]. split; [reflexivity|]. split; vm_compute; reflexivity.
Qed.
Print Assumptions C88_eku_refuted.
