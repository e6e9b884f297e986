(** * C90-C94: the ASN.1 decoder and its grammars *)
From Coq Require Import ZArith List Lia Bool.
From Verif Require Import Asn1Tables Asn1Model Asn1Proof Asn1DerSpec Asn1Der.
Import ListNotations.
Open Scope Z_scope.

Definition octets (l : list Z) : Prop := Forall (fun b => 0 <= b < 256) l.

Lemma octets_nth : forall l, octets l -> forall i, 0 <= nth i l 0.
Proof.
  intros l H i. destruct (Nat.lt_ge_cases i (length l)) as [A|A].
  - unfold octets in H. rewrite Forall_forall in H.
    pose proof (H (nth i l 0) (nth_In l 0 A)). lia.
  - rewrite nth_overflow by lia. lia.
Qed.

(** The fourteen grammars shipped in asn1/src pass the static check. *)
Lemma tables_checked :
  forallb (fun t => check (fst t) (snd t) (find_cert (fst t))) all_tables = true.
Proof. vm_compute. reflexivity. Qed.

Lemma table_check : forall m a, In (m, a) all_tables -> check m a (find_cert m) = true.
Proof.
  intros m a H. pose proof tables_checked as T. rewrite forallb_forall in T.
  exact (T (m, a) H).
Qed.

(** ** C91: the decoder stops *)
Theorem C91_terminates : forall (C : Type) act m a data n (c : C),
  In (m, a) all_tables -> octets data ->
  ((length data + 2) * (2 * length m + 2) <= n)%nat ->
  exists r, ber_decoder C act a m data n c = Fin r /\ r <= 0.
Proof.
  intros C act m a data n c Hin Hb Hn.
  apply (decoder_ok C act a m (find_cert m) data n c).
  - apply table_check. exact Hin.
  - apply octets_nth. exact Hb.
  - unfold machlen. lia.
Qed.

(** the bound for the largest table *)
Theorem C91_linear : forall (C : Type) act m a data (c : C),
  In (m, a) all_tables -> octets data ->
  exists r, ber_decoder C act a m data (512 * (length data + 2)) c = Fin r /\ r <= 0.
Proof.
  intros C act m a data c Hin Hb. apply C91_terminates; [exact Hin|exact Hb|].
  assert (L : (length m <= 255)%nat).
  { assert (T : forallb (fun t => length (fst t) <=? 255)%nat all_tables = true)
      by (vm_compute; reflexivity).
    rewrite forallb_forall in T. apply Nat.leb_le. exact (T (m, a) Hin). }
  nia.
Qed.

(** hypotheses met: the certificate grammar on an arbitrary byte string *)
Example C91_live : In (x509_machine, x509_actions) all_tables /\
  octets [48; 130; 255; 255; 1] /\
  ber_decoder unit (fun _ _ _ _ _ c => (0, c)) x509_actions x509_machine
    [48; 130; 255; 255; 1] 100 tt = Fin EBADMSG.
Proof.
  split; [cbn; tauto|]. split.
  - repeat (apply Forall_cons; [lia|]). apply Forall_nil.
  - vm_compute. reflexivity.
Qed.
Print Assumptions C91_linear.

(** ** C90: no access outside the input, whatever the input *)
Lemma run_stays : forall C act a m data k n sc,
  run C act a m data n sc = Bad -> run C act a m data (n + k) sc = Bad.
Proof.
  intros C act a m data k n. induction n as [|n IH]; intros sc H; cbn in *; [discriminate|].
  destruct (step C act a m data sc) as [sc'|r|]; cbn [bind] in *;
    [apply IH; exact H|discriminate|reflexivity].
Qed.

(** After any number of trips, under every behaviour of the actions, nothing
    outside the input, the bytecode, the stacks or the action table has been
    touched, and no action has been given a slice that is not inside the
    input with its header in front of it. *)
Theorem C90_memory_safe : forall (C : Type) act m a data n (c : C),
  In (m, a) all_tables -> octets data ->
  ber_decoder C act a m data n c <> Bad.
Proof.
  intros C act m a data n c Hin Hb H.
  destruct (C91_terminates C act m a data (n + (length data + 2) * (2 * length m + 2)) c
              Hin Hb ltac:(lia)) as (r & E & _).
  unfold ber_decoder in *.
  destruct (Z.of_nat (length data) >? 2 ^ 18); [discriminate|].
  rewrite (run_stays _ _ _ _ _ _ _ _ H) in E. discriminate.
Qed.

(** What the actions see: a log of every call made on the way. *)
Definition call_log : Type := list (Z * Z * Z * Z).
Definition logcall (rc : Z -> Z) (i hdr tag off len : Z) (c : call_log) : Z * call_log :=
  (rc i, c ++ [(i, hdr, off, len)]).

Definition call_inside (nact size : Z) (e : Z * Z * Z * Z) : Prop :=
  let '(i, hdr, off, len) := e in
  0 <= i < nact /\ 2 <= hdr /\ 0 <= off - hdr /\ 0 <= len /\ off + len <= size.

Lemma call_log_inside : forall rc a data i hdr tag off len c c',
  Forall (call_inside a (Z.of_nat (length data))) c ->
  call call_log (logcall rc) a data i hdr tag off len c = Go c' ->
  Forall (call_inside a (Z.of_nat (length data))) c'.
Proof.
  intros rc a data i hdr tag off len c c' F H. unfold call, logcall in H.
  destruct ((0 <=? i) && (i <? a) && (2 <=? hdr) && (hdr <=? off) && (0 <=? len) &&
            (off + len <=? Z.of_nat (length data))) eqn:E; [|discriminate].
  destruct (rc i <? 0); [discriminate|]. injection H as <-.
  apply Forall_app. split; [exact F|]. constructor; [|constructor].
  repeat (apply andb_true_iff in E; let E1 := fresh "E" in destruct E as [E E1]).
  unfold call_inside.
  apply Z.leb_le in E. apply Z.ltb_lt in E4. apply Z.leb_le in E3, E2, E1, E0. lia.
Qed.

Lemma step_log_inside : forall rc a m data s c s' c',
  Forall (call_inside a (Z.of_nat (length data))) c ->
  step call_log (logcall rc) a m data (s, c) = Go (s', c') ->
  Forall (call_inside a (Z.of_nat (length data))) c'.
Proof.
  intros rc a m data s c s' c' F H. unfold step in H.
  destruct (machlen m <=? s_pc s); [discriminate|].
  destruct (rd m (s_pc s)) as [op| |]; cbn [bind] in H; try discriminate.
  destruct (rd op_lengths op) as [ol| |]; cbn [bind] in H; try discriminate.
  destruct (machlen m <? s_pc s + ol); [discriminate|].
  destruct (if op <=? 27 then do_match m data op ol s else Go (inr s)) as [[s1|s1]| |];
    cbn [bind] in H; try discriminate.
  - injection H as _ <-. exact F.
  - destruct (leaf_op op).
    { unfold do_leaf in H. destruct s1.
      destruct (if negb (has s_flags F_CONS) && has s_flags F_INDEF then _ else _)
        as [l| |]; cbn [bind] in H; try discriminate.
      destruct (has op 2).
      - destruct (rd m _) as [i| |]; cbn [bind] in H; try discriminate.
        destruct (call call_log (logcall rc) a data i s_hdr s_tag s_dp l c) as [c1| |] eqn:EC;
          cbn [bind] in H; try discriminate.
        injection H as _ <-. exact (call_log_inside _ _ _ _ _ _ _ _ _ _ F EC).
      - cbn [bind] in H. injection H as _ <-. exact F. }
    destruct (jump_op op).
    { unfold do_jump in H. destruct s1. destruct (_ =? 10); [discriminate|].
      destruct (rd m _) as [t| |]; cbn [bind] in H; try discriminate.
      injection H as _ <-. exact F. }
    destruct (op =? 28).
    { destruct (negb _); [discriminate|]. injection H as _ <-. exact F. }
    destruct (op =? 29).
    { destruct (s_cons s1); [destruct (s_jump s1)|]; discriminate. }
    destruct (end_op op).
    { unfold do_end in H. destruct s1. destruct (_ && negb _); [discriminate|].
      destruct s_cons as [|[[cdp cdl] ch] cs]; [discriminate|].
      match type of H with (bind ?r _) = _ => destruct r as [[sl|[[l d] dl]]| |] end;
        cbn [bind] in H; try discriminate.
      - injection H as _ <-. exact F.
      - destruct (has op 4).
        + destruct (rd m _) as [i| |]; cbn [bind] in H; try discriminate.
          destruct (call call_log (logcall rc) a data i ch 0 cdp l c) as [c1| |] eqn:EC;
            cbn [bind] in H; try discriminate.
          injection H as _ <-. exact (call_log_inside _ _ _ _ _ _ _ _ _ _ F EC).
        + cbn [bind] in H. injection H as _ <-. exact F. }
    destruct ((op =? 30) || (op =? 31)).
    { unfold do_act in H. destruct s1. destruct (_ && negb _).
      - injection H as _ <-. exact F.
      - destruct (rd m _) as [i| |]; cbn [bind] in H; try discriminate.
        destruct (call call_log (logcall rc) a data i s_hdr s_tag s_tdp s_len c)
          as [c1| |] eqn:EC; cbn [bind] in H; try discriminate.
        injection H as _ <-. exact (call_log_inside _ _ _ _ _ _ _ _ _ _ F EC). }
    destruct (op =? 40); [|discriminate].
    destruct (s_jump s1); [discriminate|]. injection H as _ <-. exact F.
Qed.

Theorem C90_calls : forall rc m a data n r log,
  In (m, a) all_tables -> octets data ->
  final call_log (logcall rc) a m data n (st0 (Z.of_nat (length data)), []) = Some (r, log) ->
  Forall (call_inside a (Z.of_nat (length data))) log.
Proof.
  intros rc m a data n r log _ _.
  assert (G : forall n s c, Forall (call_inside a (Z.of_nat (length data))) c ->
    final call_log (logcall rc) a m data n (s, c) = Some (r, log) ->
    Forall (call_inside a (Z.of_nat (length data))) log).
  { clear n. induction n as [|n IH]; intros s c F H; cbn [final] in H; [discriminate|].
    destruct (step call_log (logcall rc) a m data (s, c)) as [[s' c']|q|] eqn:E.
    - apply (IH s' c'); [|exact H]. exact (step_log_inside _ _ _ _ _ _ _ _ F E).
    - injection H as _ <-. exact F.
    - discriminate. }
  apply G. constructor.
Qed.

Example C90_live :
  final call_log (logcall (fun _ => 0)) x509_basic_constraints_actions
    x509_basic_constraints_machine [48; 6; 1; 1; 255; 2; 1; 3] 10 (st0 8, []) =
  Some (0, [(0, 2, 4, 1); (1, 2, 7, 1)]).
Proof. vm_compute. reflexivity. Qed.
Print Assumptions C90_memory_safe.
Print Assumptions C90_calls.

(** The decoder itself does not enforce this: on a table using the documented
    operation ASN1_OP_MATCH_ACT with a constructed tag, an element of
    indefinite length is handed to the action with length 128 whatever the
    input holds. *)
Theorem C90_any_table_refuted : exists m data,
  octets m /\ octets data /\
  ber_decoder unit (fun _ _ _ _ _ c => (0, c)) 1 m data 10 tt = Bad.
Proof.
  exists [2; 48; 0; 32; 29], [48; 128; 0; 0].
  split; [|split].
  - repeat (apply Forall_cons; [lia|]). apply Forall_nil.
  - repeat (apply Forall_cons; [lia|]). apply Forall_nil.
  - vm_compute. reflexivity.
Qed.
Print Assumptions C90_any_table_refuted.

(** ** C92: on DER input the actions get exactly the contents, in order *)
Definition decode (m : list Z) (a : Z) (data : list Z) (n : nat) :=
  final (list entry) (logact data) a m data n (st0 (Z.of_nat (length data)), []).

(** ML-DSA and SLH-DSA private keys: SEQUENCE { BIT STRING } *)
Theorem C92_mldsa_privkey : forall sk n, (5 <= n)%nat ->
  Z.of_nat (length (tlv SEQ (tlv BTS sk))) <= 2 ^ 18 ->
  decode x509_mldsa_privkey_machine x509_mldsa_privkey_actions
    (tlv SEQ (tlv BTS sk)) n = Some (0, [(0, BTS, sk)]) /\
  decode x509_slhdsa_privkey_machine x509_slhdsa_privkey_actions
    (tlv SEQ (tlv BTS sk)) n = Some (0, [(0, BTS, sk)]).
Proof.
  intros sk n Hn Hl. unfold decode.
  assert (E : exists k, n = (length [(BTS, 0, sk)] + S (S (S k)))%nat)
    by (exists (n - 4)%nat; cbn [length]; lia).
  destruct E as (k & ->).
  assert (D : tlv SEQ (tlv BTS sk) = tlv 48 (flat_map fdata [(BTS, 0, sk)]) ++ []).
  { cbn [flat_map fdata]. rewrite !app_nil_r. reflexivity. }
  split.
  - apply (record_ok x509_mldsa_privkey_machine _ 1 Hl [(BTS, 0, sk)] [] k);
      [|reflexivity|exact D].
    constructor; [|constructor]. unfold fok, BTS. repeat split; try lia; discriminate.
  - apply (record_ok x509_slhdsa_privkey_machine _ 1 Hl [(BTS, 0, sk)] [] k);
      [|reflexivity|exact D].
    constructor; [|constructor]. unfold fok, BTS. repeat split; try lia; discriminate.
Qed.

(** composite keys and signatures: SEQUENCE { BIT STRING, BIT STRING } *)
Theorem C92_composite : forall v1 v2 n, (5 <= n)%nat ->
  Z.of_nat (length (tlv SEQ (tlv BTS v1 ++ tlv BTS v2))) <= 2 ^ 18 ->
  decode x509_composite_mldsa_privkey_machine x509_composite_mldsa_privkey_actions
    (tlv SEQ (tlv BTS v1 ++ tlv BTS v2)) n = Some (0, [(1, BTS, v1); (0, BTS, v2)]).
Proof.
  intros v1 v2 n Hn Hl. unfold decode.
  set (fs := [(BTS, 1, v1); (BTS, 0, v2)] : list field).
  assert (E : exists k, n = (length fs + S (S (S k)))%nat)
    by (exists (n - 5)%nat; cbn [length fs]; lia).
  destruct E as (k & ->).
  apply (record_ok x509_composite_mldsa_privkey_machine _ 2 Hl fs [] k);
    [|reflexivity|].
  - unfold fs. repeat (apply Forall_cons; [unfold fok, BTS; repeat split; try lia; discriminate|]).
    apply Forall_nil.
  - unfold fs. cbn [flat_map fdata]. rewrite !app_nil_r. reflexivity.
Qed.

(** extended key usage: SEQUENCE OF OBJECT IDENTIFIER, any number of them *)
Theorem C92_eku : forall oids n, oids <> [] -> (2 * length oids + 2 <= n)%nat ->
  Z.of_nat (length (tlv SEQ (flat_map (tlv OID) oids))) <= 2 ^ 18 ->
  decode x509_eku_machine x509_eku_actions (tlv SEQ (flat_map (tlv OID) oids)) n =
  Some (0, map (fun o => (0, OID, o)) oids).
Proof.
  intros oids n NE Hn Hl. unfold decode.
  assert (E : exists k, n = (2 * length oids + S (S k))%nat)
    by (exists (n - (2 * length oids + 2))%nat; lia).
  destruct E as (k & ->).
  apply (seqof_ok x509_eku_machine _ 1 Hl 6 0 oids []);
    try reflexivity; try lia; try discriminate; [exact NE|].
  rewrite app_nil_r. reflexivity.
Qed.

(** key usage (BIT STRING) and subject key identifier (OCTET STRING) *)
Theorem C92_single : forall v n, (2 <= n)%nat ->
  Z.of_nat (length v) <= 200000 ->
  decode x509_keyusage_machine x509_keyusage_actions (tlv BTS v) n =
    Some (0, [(0, BTS, v)]) /\
  decode x509_skid_machine x509_skid_actions (tlv OTS v) n = Some (0, [(0, OTS, v)]).
Proof.
  intros v n Hn Hl. unfold decode.
  assert (E : exists k, n = S (S k)) by (exists (n - 2)%nat; lia).
  destruct E as (k & ->).
  pose proof (hl_range v) as HL.
  assert (L : forall t, Z.of_nat (length (tlv t v)) <= 2 ^ 18).
  { intro t. rewrite tlv_length. change (2 ^ 18) with 262144. lia. }
  split.
  - apply (single_ok x509_keyusage_machine _ 1 (L BTS) 3 0 v []);
      try reflexivity; try lia; try discriminate.
    rewrite app_nil_r. reflexivity.
  - apply (single_ok x509_skid_machine _ 1 (L OTS) 4 0 v []);
      try reflexivity; try lia; try discriminate.
    rewrite app_nil_r. reflexivity.
Qed.

(** basic constraints: SEQUENCE { BOOLEAN OPTIONAL, INTEGER OPTIONAL } *)
Theorem C92_basic_constraints : forall ca pl n, (5 <= n)%nat ->
  let body := (match ca with Some v => tlv BOOL v | None => [] end) ++
              (match pl with Some v => tlv INT v | None => [] end) in
  Z.of_nat (length (tlv SEQ body)) <= 2 ^ 18 ->
  decode x509_basic_constraints_machine x509_basic_constraints_actions (tlv SEQ body) n =
  Some (0, (match ca with Some v => [(0, BOOL, v)] | None => [] end) ++
           (match pl with Some v => [(1, INT, v)] | None => [] end)).
Proof.
  intros ca pl n Hn body Hl. unfold decode.
  assert (E : exists k, n = (5 + k)%nat) by (exists (n - 5)%nat; lia).
  destruct E as (k & ->).
  apply (optional_ok (tlv SEQ body) Hl ca pl [] k).
  rewrite app_nil_r. reflexivity.
Qed.

Example C92_live :
  decode x509_eku_machine x509_eku_actions
    (tlv SEQ (flat_map (tlv OID) [[43; 6; 1; 5; 5; 7; 3; 1]; [43; 6; 1; 5; 5; 7; 3; 2]])) 20 =
  Some (0, [(0, 6, [43; 6; 1; 5; 5; 7; 3; 1]); (0, 6, [43; 6; 1; 5; 5; 7; 3; 2])]).
Proof. apply C92_eku; [discriminate|cbn; lia|vm_compute; discriminate]. Qed.
Print Assumptions C92_mldsa_privkey.
Print Assumptions C92_composite.
Print Assumptions C92_eku.
Print Assumptions C92_single.
Print Assumptions C92_basic_constraints.

(** ** C93: only one complete DER encoding is accepted *)
Definition accepted (m : list Z) (a : Z) (data : list Z) : Prop :=
  exists n log, decode m a data n = Some (0, log).

(** what DER acceptance would mean for the outermost element *)
Definition one_der (data : list Z) : Prop :=
  exists t v, octets v /\ 0 <= t < 256 /\ data = tlv t v.

(** Every accepted encoding can be followed by anything: the end of the input
    is not looked at. *)
Theorem C93_trailing_refuted : forall post v,
  Z.of_nat (length v) + Z.of_nat (length post) <= 200000 ->
  exists log, decode x509_keyusage_machine x509_keyusage_actions (tlv BTS v ++ post) 2 =
              Some (0, log) /\
              decode x509_keyusage_machine x509_keyusage_actions (tlv BTS v) 2 = Some (0, log).
Proof.
  intros post v Hl. exists [(0, BTS, v)].
  pose proof (hl_range v) as HL.
  split; [|apply C92_single; lia].
  unfold decode.
  apply (single_ok x509_keyusage_machine (tlv BTS v ++ post) 1 ltac:(
           rewrite app_length, Nat2Z.inj_add, tlv_length; change (2 ^ 18) with 262144; lia)
           3 0 v post);
    try reflexivity; try lia; try discriminate.
Qed.

Lemma not_one_der : forall data,
  (forall t v, data = tlv t v -> False) -> ~ one_der data.
Proof. intros data H (t & v & _ & _ & E). exact (H t v E). Qed.

(** Four encodings of the same basic constraints with the same meaning, none of
    them DER: bytes after the end, a length in more octets than needed, the
    indefinite form, and a SEQUENCE whose tag says it is primitive. *)
Theorem C93_der_refuted : exists d1 d2 d3 d4,
  let acc d := decode x509_basic_constraints_machine x509_basic_constraints_actions d 10 =
               Some (0, [(0, BOOL, [255])]) in
  acc (tlv SEQ (tlv BOOL [255])) /\
  acc d1 /\ acc d2 /\ acc d3 /\ acc d4 /\
  ~ one_der d1 /\ ~ one_der d2 /\ ~ one_der d3 /\
  nth 0 d4 0 = 16 /\ NoDup [d1; d2; d3; d4].
Proof.
  exists [48; 3; 1; 1; 255; 7], [48; 129; 3; 1; 1; 255],
         [48; 128; 1; 1; 255; 0; 0], [16; 3; 1; 1; 255].
  assert (X : forall t v l0 rest, l0 < 128 -> Z.of_nat (length rest) <> l0 ->
              t :: l0 :: rest = tlv t v -> False).
  { intros t v l0 rest A B E. unfold tlv, der_len in E. injection E as E.
    destruct (Z.of_nat (length v) <? 128).
    - cbn in E. injection E as E1 E2. subst. lia.
    - destruct (Z.of_nat (length v) <? 256); [cbn in E; injection E as E1 _; lia|].
      destruct (Z.of_nat (length v) <? 65536); cbn in E; injection E as E1 _; lia. }
  cbv zeta. do 5 (split; [vm_compute; reflexivity|]).
  split.
  { apply not_one_der. intros t v E. assert (t = 48) by (unfold tlv in E; injection E; auto).
    subst t. apply (X 48 v 3 [1; 1; 255; 7]); [lia|cbn; lia|exact E]. }
  split.
  { apply not_one_der. intros t v E. unfold tlv, der_len in E.
    destruct (Z.of_nat (length v) <? 128) eqn:E1.
    - cbn in E. injection E as _ E2 _. apply Z.ltb_lt in E1. lia.
    - apply Z.ltb_ge in E1.
      destruct (Z.of_nat (length v) <? 256); [cbn in E; injection E as _ E2 _; lia|].
      destruct (Z.of_nat (length v) <? 65536); cbn in E; discriminate. }
  split.
  { apply not_one_der. intros t v E. unfold tlv, der_len in E.
    destruct (Z.of_nat (length v) <? 128) eqn:E1.
    - cbn in E. injection E as _ E2 _. apply Z.ltb_lt in E1. lia.
    - destruct (Z.of_nat (length v) <? 256); [cbn in E; discriminate|].
      destruct (Z.of_nat (length v) <? 65536); cbn in E; discriminate. }
  split; [reflexivity|].
  repeat (apply NoDup_cons; [cbn; intuition discriminate|]). apply NoDup_nil.
Qed.
Print Assumptions C93_trailing_refuted.
Print Assumptions C93_der_refuted.

Lemma tb5 : forall t, 0 <= t < 32 -> Z.testbit t 5 = false.
Proof.
  intros t H. rewrite Z.testbit_eqb by lia.
  rewrite Z.div_small by (change (2 ^ 5) with 32; lia). reflexivity.
Qed.

(** What does hold: the key usage and subject key identifier grammars accept
    only an input that starts with the right tag, and hand over one slice of
    the input. *)
Theorem C93_single_partial : forall m a t data n log,
  (m, a, t) = (x509_keyusage_machine, x509_keyusage_actions, BTS) \/
  (m, a, t) = (x509_skid_machine, x509_skid_actions, OTS) ->
  octets data -> Z.of_nat (length data) <= 2 ^ 18 ->
  decode m a data n = Some (0, log) ->
  exists pre v post, data = pre ++ v ++ post /\ (2 <= length pre)%nat /\
    nth 0 data 0 = t /\ log = [(0, t, v)].
Proof.
  intros m a t data n log Hm Hb Hl H.
  assert (M : m = [2; t; 0; 29] /\ a = 1 /\ 0 <= t < 32).
  { destruct Hm as [E|E]; injection E as -> -> ->; repeat split; try reflexivity;
      unfold BTS, OTS; lia. }
  clear Hm. destruct M as (-> & -> & Ht).
  unfold decode in H.
  destruct n as [|n]; [discriminate|]. cbn [final] in H.
  unfold step at 1 in H. cbn [s_pc st0] in H.
  change (machlen [2; t; 0; 29] <=? 0) with false in H.
  change (rd [2; t; 0; 29] 0) with (@Go Z 2) in H. cbn [bind] in H.
  change (rd op_lengths 2) with (@Go Z 3) in H. cbn [bind] in H.
  change (machlen [2; t; 0; 29] <? 0 + 3) with false in H.
  change (2 <=? 27) with true in H. cbv iota in H.
  pose proof (do_match_ok [2; t; 0; 29] data (octets_nth data Hb) Hl 2 3
     (st0 (Z.of_nat (length data))) ltac:(cbn; lia) ltac:(cbn; lia) (or_intror eq_refl)) as P.
  destruct (do_match [2; t; 0; 29] data 2 3 (st0 (Z.of_nat (length data))))
    as [[s1|s1]|r|] eqn:ED; cbn [bind] in H.
  - cbn [match_post] in P. destruct P as (_ & _ & _ & _ & _ & _ & _ & P).
    destruct P as [(_ & [(A & _)|(A & _)])|(_ & A & _)]; discriminate.
  - (* matched *)
    assert (TAG : nth 0 data 0 = t).
    { unfold do_match, st0 in ED. change (has 2 16) with false in ED.
      change (has 2 1) with false in ED. cbn [andb orb] in ED.
      destruct (usub _ 0 <? 2); [discriminate|].
      destruct (rd data 0) as [tg| |] eqn:ER; cbn [bind] in ED; try discriminate.
      destruct (Z.land tg 31 =? 31); [discriminate|].
      change (has 2 8) with false in ED. cbv iota in ED.
      change (rd [2; t; 0; 29] (0 + 1)) with (@Go Z t) in ED. cbn [bind] in ED.
      assert (T32 : Z.land t 32 = 0).
      { apply Z.bits_inj'. intros k Hk. rewrite Z.land_spec, Z.bits_0.
        destruct (Z.eq_dec k 5) as [->|D].
        - rewrite tb5 by exact Ht. reflexivity.
        - change 32 with (2 ^ 5). rewrite Z.pow2_bits_false by lia. apply andb_false_r. }
      rewrite T32 in ED. change (255 - 0) with 255 in ED.
      destruct (Z.land (Z.lxor t tg) 255 =? 0) eqn:EX; cbn [negb bind] in ED; [|discriminate].
      apply Z.eqb_eq in EX.
      assert (TG : tg = nth 0 data 0 /\ 0 <= tg < 256).
      { unfold rd in ER. destruct ((0 <=? 0) && (0 <? Z.of_nat (length data))) eqn:EI;
          [|discriminate]. injection ER as <-. split; [reflexivity|].
        apply andb_true_iff in EI. destruct EI as [_ EI]. apply Z.ltb_lt in EI.
        unfold octets in Hb. rewrite Forall_forall in Hb. apply Hb. apply nth_In. lia. }
      destruct TG as [TG TR]. rewrite <- TG.
      change 255 with (Z.ones 8) in EX. rewrite Z.land_ones in EX by lia.
      assert (XR : 0 <= Z.lxor t tg < 2 ^ 8).
      { split; [apply Z.lxor_nonneg; lia|].
        destruct (Z.eq_dec (Z.lxor t tg) 0) as [->|NZ]; [cbn; lia|].
        apply Z.log2_lt_pow2.
        - assert (0 <= Z.lxor t tg) by (apply Z.lxor_nonneg; lia). lia.
        - eapply Z.le_lt_trans; [apply Z.log2_lxor; lia|].
          apply Z.max_lub_lt.
          + destruct (Z.eq_dec t 0) as [->|]; [cbn; lia|]. apply Z.log2_lt_pow2; lia.
          + destruct (Z.eq_dec tg 0) as [->|]; [cbn; lia|]. apply Z.log2_lt_pow2; lia. }
      rewrite Z.mod_small in EX by exact XR. apply Z.lxor_eq in EX. symmetry. exact EX. }
    cbn [match_post s_pc st0 s_dp s_datalen s_jump s_cons] in P.
    destruct P as (P1 & P2 & P3 & P4 & P5 & P6 & P7 & P8 & P9 & P10 & _ & _).
    assert (IC : iscons [2; t; 0; 29] 0 2 = false).
    { unfold iscons. change (g [2; t; 0; 29] (0 + 1)) with t.
      rewrite has32, tb5 by exact Ht. apply andb_false_r. }
    rewrite IC in P7. destruct (P10 IC) as [P11 P12].
    change (leaf_op 2) with true in H. cbv iota in H.
    assert (TS : s_tag s1 = t).
    { unfold do_match, st0 in ED. change (has 2 16) with false in ED.
      change (has 2 1) with false in ED. cbn [andb orb] in ED.
      destruct (usub _ 0 <? 2); [discriminate|].
      destruct (rd data 0) as [tg| |] eqn:ER; cbn [bind] in ED; try discriminate.
      assert (TG : tg = t).
      { rewrite <- TAG. unfold rd in ER.
        destruct ((0 <=? 0) && (0 <? Z.of_nat (length data))); [|discriminate].
        injection ER as <-. reflexivity. }
      destruct (Z.land tg 31 =? 31); [discriminate|].
      match type of ED with bind ?x _ = _ => destruct x as [[fl|]| |] end;
        cbn [bind] in ED; try discriminate.
      destruct (rd data (uadd 0 1)) as [l0| |]; cbn [bind] in ED; try discriminate.
      match type of ED with bind ?x _ = _ => destruct x as [[[[f h] l] d]| |] end;
        cbn [bind] in ED; try discriminate.
      destruct (has f F_CONS).
      - destruct (10 <=? _); [discriminate|].
        destruct (negb (has f F_INDEF)); injection ED as <-; exact TG.
      - injection ED as <-. exact TG. }
    unfold do_leaf in H. destruct s1 as [pc dp tdp len dl fl tg hd cs js].
    cbn [s_pc s_dp s_tdp s_len s_datalen s_flags s_hdr s_cons s_jump s_tag] in *.
    subst pc dl cs js tg tdp. rewrite P7 in H. cbn [negb andb] in H.
    assert (LEN : exists l,
      (if has fl F_INDEF then
         r <- find_indef (S (length data)) data (Z.of_nat (length data)) dp dp 1 ;; Go (snd r)
       else Go len) = Go l /\ 0 <= l /\ dp + l <= Z.of_nat (length data)).
    { destruct (has fl F_INDEF) eqn:EI.
      - destruct (find_indef_ok data (octets_nth data Hb) Hl (S (length data))
                    (Z.of_nat (length data)) dp dp 1) as [F|(d & F & G)];
          [lia|lia|lia|rewrite Nat2Z.inj_succ; lia| |].
        + rewrite F in H. cbn [bind] in H. discriminate.
        + exists (d - dp). rewrite F. cbn [bind snd]. split; [reflexivity|lia].
      - specialize (P8 eq_refl). exists len. split; [reflexivity|lia]. }
    destruct LEN as (l & EL & L1 & L2). rewrite EL in H. cbn [bind] in H.
    change (has 2 2) with true in H. change (has 2 8) with false in H. cbv iota in H.
    change (rd [2; t; 0; 29] (0 + 2)) with (@Go Z 0) in H. cbn [bind] in H.
    unfold call in H.
    replace (0 <=? 0) with true in H by reflexivity.
    replace (0 <? 1) with true in H by reflexivity.
    replace (2 <=? hd) with true in H by (symmetry; apply Z.leb_le; lia).
    replace (hd <=? dp) with true in H by (symmetry; apply Z.leb_le; lia).
    replace (0 <=? l) with true in H by (symmetry; apply Z.leb_le; lia).
    replace (dp + l <=? Z.of_nat (length data)) with true in H
      by (symmetry; apply Z.leb_le; lia).
    cbn [andb] in H. unfold logact in H. change (0 <? 0) with false in H.
    cbn [bind] in H.
    destruct n as [|n]; [discriminate|].
    assert (EF := trip_complete [2; t; 0; 29] data 1 [2; t; 0] [] 3 (uadd dp l) dp l
       (Z.of_nat (length data)) fl t hd
       ([] ++ [(0, t, firstn (Z.to_nat l) (skipn (Z.to_nat dp) data))]) eq_refl eq_refl).
    assert (H' : final (list entry) (logact data) 1 [2; t; 0; 29] data (S n)
       (mkst 3 (uadd dp l) dp l (Z.of_nat (length data)) fl t hd [] [],
        [] ++ [(0, t, firstn (Z.to_nat l) (skipn (Z.to_nat dp) data))]) = Some (0, log))
      by exact H.
    pose proof (eq_trans (eq_sym H') (fin_end [2; t; 0; 29] data 1 n _ 0 EF)) as HH.
    injection HH as ->.
    exists (firstn (Z.to_nat dp) data), (firstn (Z.to_nat l) (skipn (Z.to_nat dp) data)),
           (skipn (Z.to_nat l) (skipn (Z.to_nat dp) data)).
    split; [rewrite !firstn_skipn; reflexivity|].
    split; [rewrite firstn_length_le by lia; lia|].
    split; [exact TAG|reflexivity].
  - injection H as -> _. cbn [match_post] in P. lia.
  - discriminate.
Qed.

Example C93_single_live :
  decode x509_skid_machine x509_skid_actions [4; 2; 7; 8] 2 = Some (0, [(0, OTS, [7; 8])]).
Proof. vm_compute. reflexivity. Qed.
Print Assumptions C93_single_partial.

(** ** C94: what the grammar requires is required *)

(** a skeletal certificate, RFC 5280 4.1 *)
Definition alg := tlv SEQ (tlv OID [42; 3]).
Definition name := tlv SEQ (tlv 49 (tlv SEQ (tlv OID [85; 4; 3] ++ tlv 12 [65]))).
Definition utc := tlv 23 [50;53;48;49;48;49;48;48;48;48;48;48;90].
Definition certificate (validity subject : list Z) : list Z :=
  tlv SEQ (tlv SEQ (tlv INT [1] ++ alg ++ name ++ validity ++ subject ++
                    tlv SEQ (alg ++ tlv BTS [0; 1; 2])) ++
           alg ++ tlv BTS [0; 9]).

Definition ACT_note_not_after : Z := 9.
Definition ACT_note_not_before : Z := 10.

(** the actions on the validity, in order *)
Definition validity_calls (o : option (Z * list entry)) : option (Z * list entry) :=
  match o with
  | Some (r, l) =>
      Some (r, filter (fun e => (fst (fst e) =? ACT_note_not_after) ||
                                (fst (fst e) =? ACT_note_not_before)) l)
  | None => None
  end.

(** A Validity without notAfter is accepted: the action that records notAfter is
    called on the contents of notBefore.  A Validity without either is
    accepted by the decoder as well, the actions being given the empty string. *)
Theorem C94_validity_refuted :
  let time := [50;53;48;49;48;49;48;48;48;48;48;48;90] in
  validity_calls (decode x509_machine x509_actions
    (certificate (tlv SEQ utc) name) 200) =
    Some (0, [(ACT_note_not_before, 23, time); (ACT_note_not_after, 23, time)]) /\
  validity_calls (decode x509_machine x509_actions
    (certificate (tlv SEQ []) name) 200) =
    Some (0, [(ACT_note_not_before, 48, []); (ACT_note_not_after, 48, [])]).
Proof. split; vm_compute; reflexivity. Qed.

(** An empty subject, which RFC 5280 4.1.2.6 allows, is refused although the
    same certificate with a name is accepted. *)
Theorem C94_empty_subject_refuted :
  (exists log, decode x509_machine x509_actions
     (certificate (tlv SEQ (utc ++ utc)) name) 200 = Some (0, log)) /\
  (exists log, decode x509_machine x509_actions
     (certificate (tlv SEQ (utc ++ utc)) (tlv SEQ [])) 200 = Some (EBADMSG, log)).
Proof. split; eexists; vm_compute; reflexivity. Qed.

(** A SignedData that ends after its certificates, without signerInfos, is
    accepted (RFC 2315 9.1 requires the field). *)
Definition signed_data (tail : list Z) : list Z :=
  tlv SEQ (tlv OID [42; 134; 72; 134; 247; 13; 1; 7; 2] ++
    tlv 160 (tlv SEQ (tlv INT [1] ++ tlv 49 (tlv SEQ (tlv OID [42; 3])) ++
                      tlv SEQ (tlv OID [42; 134; 72; 134; 247; 13; 1; 7; 1]) ++ tail))).

Theorem C94_signerinfos_refuted :
  (exists log, decode pkcs7_machine pkcs7_actions (signed_data []) 200 = Some (0, log)) /\
  (exists log, decode pkcs7_machine pkcs7_actions
     (signed_data (tlv 160 (tlv SEQ [5; 0]))) 200 = Some (0, log)).
Proof. split; eexists; vm_compute; reflexivity. Qed.
Print Assumptions C94_validity_refuted.
Print Assumptions C94_empty_subject_refuted.
Print Assumptions C94_signerinfos_refuted.
