(** * C98, C99: the ASN.1 encoder *)
From Coq Require Import ZArith List Lia Bool.
From Verif Require Import Asn1Model Asn1Tables Asn1DerSpec Asn1Proof PropAsn1
  Asn1EncModel Asn1EncSpec Asn1EncProof.
Import ListNotations.
Open Scope Z_scope.

Notation llen := Asn1EncModel.llen.

(** ** C98: lengths and the primitive helpers *)

(** the DER length octets, or -EINVAL and nothing else *)
Theorem C98_length : forall avail len, 0 <= len -> 0 <= avail ->
  encode_length avail len =
  if (len <? 2 ^ 24) && (llen (der_len len) <=? avail)
  then Go (der_len len, avail - llen (der_len len)) else Fin (-22).
Proof.
  intros avail len H A. pose proof (encode_length_der avail len H) as E.
  assert (T : forall b c : bool, b = c -> forall X (x y : X), (if b then x else y) = if c then x else y)
    by (intros ? ? -> ?; reflexivity).
  change (2 ^ 24) with 16777216. unfold encode_length, der_len in *.
  assert (K : len <= 127 \/ 127 < len <= 255 \/ 255 < len <= 65535 \/ 65535 < len <= 16777215 \/ 16777215 < len) by lia.
  assert (B : forall a b, a <= b -> (a <=? b) = true) by (intros; apply Z.leb_le; assumption).
  assert (B' : forall a b, b < a -> (a <=? b) = false) by (intros; apply Z.leb_gt; assumption).
  assert (D : forall a b, a < b -> (a <? b) = true) by (intros; apply Z.ltb_lt; assumption).
  assert (D' : forall a b, b <= a -> (a <? b) = false) by (intros; apply Z.ltb_ge; assumption).
  rewrite !Z.gtb_ltb in *. clear T.
  destruct K as [K|[K|[K|[K|K]]]].
  - rewrite (B len 127) in * by lia. rewrite (D len 128), (D len 16777216) in * by lia.
    destruct (Z.ltb_spec avail 1).
    + change (llen [len]) with 1. rewrite (B' 1 avail) by lia. reflexivity.
    + change (llen [len]) with 1. rewrite (B 1 avail) by lia. reflexivity.
  - rewrite (B' len 127), (B len 255) in * by lia. rewrite (D' len 128), (D len 256), (D len 16777216) in * by lia.
    change (llen [129; len]) with 2.
    destruct (Z.ltb_spec avail 1); [rewrite (B' 2 avail) by lia; reflexivity|].
    destruct (Z.ltb_spec avail 2); [rewrite (B' 2 avail) by lia; reflexivity|].
    rewrite (B 2 avail) by lia. destruct E as [-> _]. reflexivity.
  - rewrite (B' len 127), (B' len 255), (B len 65535) in * by lia.
    rewrite (D' len 128), (D' len 256), (D len 65536), (D len 16777216) in * by lia.
    change (llen [130; _; _]) with 3.
    destruct (Z.ltb_spec avail 1); [rewrite (B' 3 avail) by lia; reflexivity|].
    destruct (Z.ltb_spec avail 2); [rewrite (B' 3 avail) by lia; reflexivity|].
    destruct (Z.ltb_spec avail 3); [rewrite (B' 3 avail) by lia; reflexivity|].
    rewrite (B 3 avail) by lia. destruct E as [-> _]. reflexivity.
  - rewrite (B' len 127), (B' len 255), (B' len 65535), (D' 16777215 len) in * by lia.
    rewrite (D' len 128), (D' len 256), (D' len 65536), (D len 16777216) in * by lia.
    change (llen [131; _; _; _]) with 4.
    destruct (Z.ltb_spec avail 1); [rewrite (B' 4 avail) by lia; reflexivity|].
    destruct (Z.ltb_spec avail 2); [rewrite (B' 4 avail) by lia; reflexivity|].
    destruct (Z.ltb_spec avail 3); [rewrite (B' 4 avail) by lia; reflexivity|].
    destruct (Z.ltb_spec avail 4); [rewrite (B' 4 avail) by lia; reflexivity|].
    rewrite (B 4 avail) by lia. destruct E as [-> _]. reflexivity.
  - rewrite (B' len 127), (B' len 255), (B' len 65535), (D 16777215 len), (D' len 16777216) in * by lia.
    destruct (avail <? 1), (avail <? 2), (avail <? 3); reflexivity.
Qed.
Print Assumptions C98_length.
Example C98_length_ex : encode_length 5 65538 = Go ([131; 1; 0; 2], 1).
Proof. reflexivity. Qed.

(** the size announced is the size written *)
Theorem C98_length_size : forall len, 0 <= len ->
  encode_length_size len = if len <? 2 ^ 24 then Go (llen (der_len len)) else Fin (-22).
Proof.
  intros len H. unfold encode_length_size, der_len. change (2 ^ 24) with 16777216. rewrite Z.gtb_ltb.
  destruct (Z.leb_spec len 127); [rewrite !(proj2 (Z.ltb_lt _ _)) by lia; reflexivity|].
  rewrite (proj2 (Z.ltb_ge len 128)) by lia.
  destruct (Z.leb_spec len 255); [rewrite !(proj2 (Z.ltb_lt _ _)) by lia; reflexivity|].
  rewrite (proj2 (Z.ltb_ge len 256)) by lia.
  destruct (Z.leb_spec len 65535); [rewrite !(proj2 (Z.ltb_lt _ _)) by lia; reflexivity|].
  rewrite (proj2 (Z.ltb_ge len 65536)) by lia.
  destruct (Z.ltb_spec 16777215 len); [rewrite (proj2 (Z.ltb_ge _ _)) by lia; reflexivity|].
  rewrite (proj2 (Z.ltb_lt _ _)) by lia. reflexivity.
Qed.
Print Assumptions C98_length_size.

(** X.690 8.3: contents octets of a non-negative INTEGER *)
Definition be_value (v : list Z) : Z := fold_left (fun a b => a * 256 + b) v 0.
Definition minimal (v : list Z) : Prop :=
  match v with
  | [] => False
  | [b] => b < 128
  | b0 :: b1 :: _ => b0 < 128 /\ (b0 = 0 -> 128 <= b1)
  end.

Fixpoint be (k : nat) (n : Z) : list Z :=
  match k with O => [] | S k => n / 256 ^ Z.of_nat k mod 256 :: be k n end.

Lemma be_len k n : length (be k n) = k.
Proof. induction k; cbn [be length]; congruence. Qed.

Lemma be_fold k n : forall a, 0 <= n ->
  fold_left (fun a b => a * 256 + b) (be k n) a = a * 256 ^ Z.of_nat k + n mod 256 ^ Z.of_nat k.
Proof.
  induction k as [|k IH]; intros a H; cbn [be fold_left].
  - rewrite Z.mod_1_r. lia.
  - rewrite (IH _ H), Nat2Z.inj_succ, Z.pow_succ_r by lia.
    assert (P : 0 < 256 ^ Z.of_nat k) by (apply Z.pow_pos_nonneg; lia).
    rewrite (Z.mul_comm 256), Z.rem_mul_r by lia. nia.
Qed.

Lemma shiftr8 n k : Z.shiftr n (8 * Z.of_nat k) = n / 256 ^ Z.of_nat k.
Proof.
  rewrite Z.shiftr_div_pow2 by lia. rewrite Z.pow_mul_r by lia. reflexivity.
Qed.

Lemma loop_found k n : forall d acc, Z.of_nat k <= d ->
  int_loop k n true d acc = (0, rev acc ++ be k n, d - Z.of_nat k).
Proof.
  induction k as [|k IH]; intros d acc H; cbn [int_loop be].
  - rewrite app_nil_r. f_equal. lia.
  - cbn [negb andb]. rewrite shiftr8.
    replace (d =? 0) with false by (symmetry; apply Z.eqb_neq; lia).
    rewrite IH by lia. cbn [rev]. rewrite <- app_assoc. cbn [app].
    f_equal. lia.
Qed.

Lemma loop_first k n d : 0 < n -> 256 ^ Z.of_nat k <= n < 256 ^ Z.of_nat (S k) ->
  let pad := 128 <=? n / 256 ^ Z.of_nat k in
  Z.of_nat (S k) + (if pad then 1 else 0) <= d ->
  int_loop (S k) n false d [] =
    (0, (if pad then [0] else []) ++ be (S k) n, d - Z.of_nat (S k) - (if pad then 1 else 0)).
Proof.
  intros H R pad D. cbn [int_loop]. rewrite shiftr8.
  assert (P : 0 < 256 ^ Z.of_nat k) by (apply Z.pow_pos_nonneg; lia).
  assert (Q : 1 <= n / 256 ^ Z.of_nat k < 256).
  { rewrite Nat2Z.inj_succ, Z.pow_succ_r in R by lia. split.
    - apply Z.div_le_lower_bound; lia.
    - apply Z.div_lt_upper_bound; lia. }
  set (b := n / 256 ^ Z.of_nat k) in *. cbn [negb andb].
  replace (b =? 0) with false by (symmetry; apply Z.eqb_neq; lia).
  assert (T : has b 128 = pad).
  { rewrite (has_tb b 128 7) by (reflexivity || lia). unfold pad. clearbody b. clear - Q.
    rewrite Z.testbit_odd, Z.shiftr_div_pow2 by lia. change (2 ^ 7) with 128.
    destruct (Z.leb_spec 128 b).
    - replace (b / 128) with 1 by (apply Z.div_unique with (b - 128); lia). reflexivity.
    - rewrite Z.div_small by lia. reflexivity. }
  rewrite T. destruct pad.
  - replace (d - 1 =? 0) with false by (symmetry; apply Z.eqb_neq; lia).
    rewrite loop_found by lia. cbn [rev app be]. fold b. f_equal. lia.
  - replace (d =? 0) with false by (symmetry; apply Z.eqb_neq; lia).
    rewrite loop_found by lia. cbn [rev app be]. fold b. f_equal. lia.
Qed.

Lemma loop_skip k n d : 0 <= n < 256 ^ Z.of_nat k ->
  int_loop (S k) n false d [] = int_loop k n false d [].
Proof.
  intro H. cbn [int_loop]. rewrite shiftr8, Z.div_small by lia. reflexivity.
Qed.

Lemma loop_all k : forall n d, 0 < n < 256 ^ Z.of_nat k -> Z.of_nat k + 1 <= d ->
  exists v, int_loop k n false d [] = (0, v, d - llen v) /\ be_value v = n /\ minimal v /\
            (1 <= length v <= S k)%nat /\ Forall (fun b => 0 <= b < 256) v.
Proof.
  induction k as [|k IH]; intros n d H D; [cbn in H; lia|].
  destruct (Z_lt_ge_dec n (256 ^ Z.of_nat k)) as [G|G].
  - rewrite loop_skip by lia. destruct (IH n d ltac:(lia) ltac:(lia)) as (v & E & V & M & L & F).
    exists v. repeat split; auto; lia.
  - pose proof (loop_first k n d ltac:(lia) ltac:(lia)) as E. cbv zeta in E.
    assert (P : 0 < 256 ^ Z.of_nat k) by (apply Z.pow_pos_nonneg; lia).
    assert (Q : 1 <= n / 256 ^ Z.of_nat k < 256).
    { destruct H as [_ H]. rewrite Nat2Z.inj_succ, Z.pow_succ_r in H by lia. split.
      - apply Z.div_le_lower_bound; lia.
      - apply Z.div_lt_upper_bound; lia. }
    assert (FB : forall j, Forall (fun b => 0 <= b < 256) (be j n)).
    { induction j; cbn [be]; constructor; [apply Z.mod_pos_bound; lia|assumption]. }
    destruct (Z.leb_spec 128 (n / 256 ^ Z.of_nat k)) as [Z1|Z1].
    + rewrite E by lia. exists (0 :: be (S k) n). cbn [app].
      split; [unfold llen; cbn [length]; rewrite be_len; f_equal; lia|].
      split. { unfold be_value. change (0 :: be (S k) n) with ([0] ++ be (S k) n). rewrite fold_left_app.
               cbn [fold_left]. rewrite be_fold by lia. rewrite Z.mod_small by lia. lia. }
      split. { cbn [be minimal]. rewrite (Z.mod_small (n / _)) by lia. lia. }
      split; [cbn [length]; rewrite be_len; lia|]. constructor; [lia|apply FB].
    + rewrite E by lia. exists (be (S k) n). cbn [app].
      split; [unfold llen; rewrite be_len; f_equal; lia|].
      split. { unfold be_value. rewrite be_fold by lia. rewrite Z.mod_small by lia. lia. }
      split. { cbn [be]. rewrite (Z.mod_small (n / _)) by lia. destruct (be k n); cbn [minimal]; lia. }
      split; [rewrite be_len; lia|]. apply FB.
Qed.

(** a positive INTEGER is written in DER and *datalen goes down by exactly
    what was written *)
Theorem C98_integer : forall n avail, 0 < n < 2 ^ 63 -> 11 <= avail ->
  exists v, encode_integer avail n = Some (0, tlv INT v, avail - llen (tlv INT v)) /\
            be_value v = n /\ minimal v /\ Forall (fun b => 0 <= b < 256) v.
Proof.
  intros n avail H A. unfold encode_integer.
  rewrite (proj2 (Z.ltb_ge avail 2)) by lia. rewrite (proj2 (Z.ltb_ge n 0)) by lia.
  rewrite (proj2 (Z.ltb_ge avail 3)) by lia. rewrite (proj2 (Z.eqb_neq n 0)) by lia.
  destruct (loop_all 8 n (avail - 2)) as (v & E & V & M & L & F).
  { change (256 ^ Z.of_nat 8) with (2 ^ 64). lia. }
  { cbn [Z.of_nat Pos.of_succ_nat Pos.succ]. lia. }
  exists v. rewrite E. split; [|auto].
  unfold tlv, der_len, INT. rewrite (proj2 (Z.ltb_lt _ 128)) by lia.
  rewrite Z.mod_small by lia. cbn [app]. unfold llen. cbn [length]. f_equal. f_equal. lia.
Qed.
Print Assumptions C98_integer.
Example C98_integer_ex : encode_integer 20 200 = Some (0, [2; 2; 0; 200], 16).
Proof. reflexivity. Qed.

(** ... but not so for zero: three octets are stored and two are charged, so
    that the next value may be written one octet past the buffer *)
Theorem C98_integer_refuted : exists avail v left,
  encode_integer avail 0 = Some (0, v, left) /\ left <> avail - llen v /\ llen v + left > avail.
Proof. exists 3, [2; 1; 0], 1. repeat split; discriminate. Qed.
Print Assumptions C98_integer_refuted.

(** asn1_encode_oid: the tag is overwritten by the first sub-identifier, which
    is then followed by a length taken for the wrong span *)
Theorem C98_oid_refuted : exists oid v left, encode_oid 100 oid = (0, v, left) /\
  oid = [1; 2; 840; 113549] /\ nth 0 v 0 <> 6 /\
  v <> tlv OID [42; 134; 72; 134; 247; 13].
Proof.
  exists [1; 2; 840; 113549], [42; 4; 72; 134; 247; 13], 92.
  repeat split; discriminate.
Qed.
Print Assumptions C98_oid_refuted.

(** ** C99: the table-driven encoder *)

(** every grammar the library encodes with: table, number of actions, and
    whether it is run with asn1_ber_encoder_small *)
Definition shipped : list (list Z * Z * bool) :=
  map (fun t => (t, false)) enc_tables ++ map (fun t => (t, true)) enc_small_tables.

(** asn1_ber_encoder and asn1_ber_encoder_small, [n] trips round their loop *)
Definition encoder (small : bool) {C : Type} act nact m (avail : Z) (n : nat) (c : C) :=
  if small then ber_encoder_small C act nact m avail n c else ber_encoder C act nact m avail n c.
Definition buffer (small : bool) : Z := if small then 256 else 2 ^ 18.

(** the calls made so far: action, return value, octets stored, tag *)
Notation calls := (list (Z * Z * list Z * Z)).
Definition recorded {C : Type} (act : Z -> Z -> Z -> C -> Z * list Z * Z * C)
  (i room tag : Z) (cl : C * calls) : Z * list Z * Z * (C * calls) :=
  let '(r, w, t, c) := act i room tag (fst cl) in (r, w, t, (c, snd cl ++ [(i, r, w, t)])).

(** a call leaves a value behind if it stored something or returned
    LC_ASN1_RET_SET_ZERO_CONTENT; actions at the end of a construct never do *)
Definition leaves_value (m : list Z) (e : Z * Z * list Z * Z) : bool :=
  let '(i, r, w, _) := e in
  negb (end_action m i) && (negb (llen w =? 0) || (r =? 2)).
Definition value_of (e : Z * Z * list Z * Z) : Z * list Z := let '(_, _, w, t) := e in (t, w).

(** an action stores no more than it was told it may *)
Definition fits {C : Type} (act : Z -> Z -> Z -> C -> Z * list Z * Z * C) : Prop :=
  forall i room tag c r w t c', act i room tag c = (r, w, t, c') -> 0 <= r ->
  0 <= room -> llen w <= room.

Definition logL (m : list Z) {C : Type} (cl : C * calls) : list (Z * list Z * Z) :=
  map (fun e => let '(_, r, w, t) := e in (r, w, t))
      (filter (fun e => let '(i, _, _, _) := e in negb (end_action m i)) (snd cl)).

Lemma enc_ok_all : forallb (fun '(m, n, small) =>
  enc_ok n m (if small : bool then 4 else 10) (buffer small)) shipped = true.
Proof. vm_compute. reflexivity. Qed.

Lemma shipped_ok m nact small : In (m, nact, small) shipped ->
  enc_ok nact m (if small then 4 else 10) (buffer small) = true.
Proof.
  intro H. pose proof enc_ok_all as A. rewrite forallb_forall in A. exact (A _ H).
Qed.

Lemma shown_values m C (cl : C * calls) :
  shown (C * calls) (logL m) cl = map value_of (filter (leaves_value m) (snd cl)).
Proof.
  unfold shown, logL. destruct cl as [c l]. cbn [snd].
  induction l as [|[[[i r] w] t] l IH]; [reflexivity|].
  cbn [filter leaves_value]. destruct (end_action m i); cbn [negb andb map filter]; [exact IH|].
  unfold kept at 1. destruct (negb (llen w =? 0) || (r =? 2)); cbn [map]; rewrite IH; reflexivity.
Qed.

Lemma encoder_good C act nact m small (mu : C -> nat) (counted : Prop) :
  In (m, nact, small) shipped -> fits act ->
  (counted -> forall i room tag c r w t c', act i room tag c = (r, w, t, c') -> 0 <= r ->
    (mu c' + (if (r =? 1)%Z then 1 else 0) <= mu c)%nat) ->
  forall avail c n, 0 <= avail ->
  match encoder small (recorded act) nact m avail n (c, []) with
  | Bad => False
  | Fin r => r = -22 \/ r = -75 \/
             (r < 0 /\ exists i room tag c w t c', act i room tag c = (r, w, t, c'))
  | Go (inr (d, (_, l))) =>
      exists f, d = flat_map enc f /\ forallb cons_tags f = true /\
        flat_map leaves f = map value_of (filter (leaves_value m) l) /\
        llen d <= avail /\ llen d <= buffer small
  | Go (inl _) => counted -> (n < (mu c + 1) *
      length (find_order nact m (if small then 4 else 10) (buffer small)))%nat
  end.
Proof.
  intros I F Mu avail c n Av. pose proof (shipped_ok _ _ _ I) as Ok.
  unfold enc_ok in Ok. cbn zeta in Ok.
  set (all := find_order nact m (if small then 4 else 10) (buffer small)) in *. clearbody all.
  apply andb_true_iff in Ok. destruct Ok as [Ok O4].
  apply andb_true_iff in Ok. destruct Ok as [Ok O3].
  apply andb_true_iff in Ok. destruct Ok as [O1 _].
  assert (Bf : 0 <= maxlen_of (buffer small) avail /\ maxlen_of (buffer small) avail <= avail /\
               maxlen_of (buffer small) avail <= buffer small)
    by (unfold maxlen_of; destruct small; cbn [buffer]; lia).
  assert (R : encoder small (recorded act) nact m avail n (c, []) =
    erun (C * calls) (recorded act) nact m (if small then 4 else 10)
      (maxlen_of (buffer small) avail) (buffer small) n (est0, (c, [])))
    by (unfold encoder; destruct small; reflexivity).
  rewrite R. clear R.
  pose proof (start_good (C * calls) (recorded act) nact m (if small then 4 else 10)
    (maxlen_of (buffer small) avail) (buffer small)
    (fun r => r < 0 /\ exists i room tag c w t c', act i room tag c = (r, w, t, c'))
    (logL m) (fun cl => mu (fst cl)) counted) as G.
  assert (E : forall i room tag cl r w t cl', recorded act i room tag cl = (r, w, t, cl') ->
    exists c', act i room tag (fst cl) = (r, w, t, c') /\ cl' = (c', snd cl ++ [(i, r, w, t)])).
  { intros i room tag cl r w t cl'. unfold recorded.
    destruct (act i room tag (fst cl)) as [[[r0 w0] t0] c'].
    intro X. injection X as <- <- <- <-. exists c'. auto. }
  specialize (G
    (fun i room tag cl r w t cl' H R => match E _ _ _ _ _ _ _ _ H with
       ex_intro _ c' (conj A _) => F _ _ _ _ _ _ _ _ A R end)).
  specialize (G (proj1 Bf)
    (fun i room tag cl r w t cl' H R => match E _ _ _ _ _ _ _ _ H with
       ex_intro _ c' (conj A _) => conj R (ex_intro _ i (ex_intro _ room (ex_intro _ tag
         (ex_intro _ (fst cl) (ex_intro _ w (ex_intro _ t (ex_intro _ c' A))))))) end)).
  assert (Lg : forall i room tag cl r w t cl', recorded act i room tag cl = (r, w, t, cl') -> 0 <= r ->
    logL m cl' = if end_action m i then logL m cl else logL m cl ++ [(r, w, t)]).
  { intros i room tag cl r w t cl' H _. destruct (E _ _ _ _ _ _ _ _ H) as (c' & _ & ->).
    unfold logL. cbn [snd]. rewrite filter_app, map_app. cbn [filter].
    destruct (end_action m i); cbn [negb map]; [apply app_nil_r|reflexivity]. }
  specialize (G Lg).
  assert (M : counted -> forall i room tag cl r w t cl', recorded act i room tag cl = (r, w, t, cl') -> 0 <= r ->
    (mu (fst cl') + (if (r =? 1)%Z then 1 else 0) <= mu (fst cl))%nat).
  { intros Ct i room tag cl r w t cl' H R. destruct (E _ _ _ _ _ _ _ _ H) as (c' & A & ->).
    exact (Mu Ct _ _ _ _ _ _ _ _ A R). }
  specialize (G M all O4 O3 O1 n (c, []) eq_refl). clear - G Bf.
  destruct (erun (C * calls) (recorded act) nact m (if small then 4 else 10)
      (maxlen_of (buffer small) avail) (buffer small) n (est0, (c, []))) as [[x|[d [c' l]]]|r|];
    cbn [good_end] in G.
  - exact G.
  - destruct G as (f & D & S & T & Ln). exists f. rewrite shown_values in S. cbn [snd] in S.
    repeat split; [exact D|exact T|symmetry; exact S|lia|lia].
  - exact G.
  - exact G.
Qed.

(** whatever the actions do within their contract, at whatever point we look:
    no access outside the table, the levels, the jump stack or a buffer; the
    only errors are -EINVAL, -EOVERFLOW or what an action returned, never the
    grammar errors; what comes out is a sequence of DER values whose primitive
    values are exactly those the actions delivered, in order, and fits *)
Theorem C99_encoder : forall C act m nact small, In (m, nact, small) shipped -> fits act ->
  forall avail (c : C) n, 0 <= avail ->
  match encoder small (recorded act) nact m avail n (c, []) with
  | Bad => False
  | Fin r => r = -22 \/ r = -75 \/
             (r < 0 /\ exists i room tag c w t c', act i room tag c = (r, w, t, c'))
  | Go (inr (d, (_, l))) =>
      exists f, d = flat_map enc f /\ forallb cons_tags f = true /\
        flat_map leaves f = map value_of (filter (leaves_value m) l) /\
        llen d <= avail /\ llen d <= buffer small
  | Go (inl _) => True
  end.
Proof.
  intros C act m nact small I F avail c n Av.
  pose proof (encoder_good C act nact m small (fun _ => O) False I F ltac:(tauto) avail c n Av) as G.
  destruct (encoder small (recorded act) nact m avail n (c, [])) as [[x|x]|r|]; [trivial|exact G|exact G|exact G].
Qed.
Print Assumptions C99_encoder.

(** if the actions ask to continue at most [mu c] times more, the run ends *)
Theorem C99_terminates : forall C act m nact small (mu : C -> nat),
  In (m, nact, small) shipped -> fits act ->
  (forall i room tag c r w t c', act i room tag c = (r, w, t, c') -> 0 <= r ->
    (mu c' + (if (r =? 1)%Z then 1 else 0) <= mu c)%nat) ->
  exists k, forall avail c, 0 <= avail -> forall s,
  encoder small (recorded act) nact m avail ((mu c + 1) * k) (c, []) <> Go (inl s).
Proof.
  intros C act m nact small mu I F Mu.
  exists (length (find_order nact m (if small then 4 else 10) (buffer small))).
  intros avail c Av s E.
  pose proof (encoder_good C act nact m small mu True I F (fun _ => Mu) avail c
    ((mu c + 1) * length (find_order nact m (if small then 4 else 10) (buffer small))) Av) as G.
  rewrite E in G. specialize (G Logic.I). lia.
Qed.
Print Assumptions C99_terminates.

(** an action that delivers one octet per call and asks for more until it is
    done: a SEQUENCE of three values *)
Definition count_act (i room tag : Z) (c : nat) : Z * list Z * Z * nat :=
  match c with
  | S c' => if room <? 1 then (-75, [], tag, c)
            else ((match c' with O => 0 | _ => 1 end), [Z.of_nat c], tag, c')
  | O => (0, [], tag, O)
  end.
Example C99_ex :
  In (x509_eku_machine, x509_eku_actions, true) shipped /\
  fits count_act /\
  (forall i room tag c r w t c', count_act i room tag c = (r, w, t, c') -> 0 <= r ->
    (c' + (if (r =? 1)%Z then 1 else 0) <= c)%nat) /\
  encoder true (recorded count_act) x509_eku_actions x509_eku_machine 100 20 (3%nat, []) =
    Go (inr ([48; 9; 6; 1; 3; 6; 1; 2; 6; 1; 1],
             (0%nat, [(0, 1, [3], 6); (0, 1, [2], 6); (0, 0, [1], 6)]))) /\
  encoder true (recorded count_act) x509_eku_actions x509_eku_machine 10 20 (3%nat, []) = Fin (-75).
Proof.
  split; [cbn; tauto|]. split; [|split; [|split; vm_compute; reflexivity]].
  - intros i room tag c r w t c' H R A. destruct c; cbn [count_act] in H.
    + injection H as <- <- <- <-. exact A.
    + destruct (Z.ltb_spec room 1); injection H as <- <- <- <-; [exact A|]. cbn. lia.
  - intros i room tag c r w t c' H R. destruct c; cbn [count_act] in H.
    + injection H as <- <- <- <-. cbn. lia.
    + destruct (Z.ltb_spec room 1); injection H as <- <- <- <-; [lia|]. destruct c; cbn; lia.
Qed.

(** the machine itself sets no limit: an action that keeps returning
    LC_ASN1_RET_CONTINUE and writes nothing keeps it running for ever *)
Lemma erun_S C act nact m lv ml ms n sc sc' :
  erun C act nact m lv ml ms n sc = Go (inl sc') ->
  erun C act nact m lv ml ms (S n) sc =
  (r <- estep C act nact m lv ml ms sc' ;; match r with inl x => Go (inl x) | inr d => Go (inr d) end).
Proof.
  revert sc. induction n as [|n IH]; intros sc H.
  - injection H as <-. cbn [erun]. destruct (estep C act nact m lv ml ms sc) as [[x|x]|r|]; reflexivity.
  - cbn [erun] in H |- *. destruct (estep C act nact m lv ml ms sc) as [[x|x]|r|]; cbn [bind] in *; try discriminate.
    specialize (IH x H). cbn [erun] in IH. exact IH.
Qed.

Definition forever_act (i room tag : Z) (c : unit) : Z * list Z * Z * unit := (1, [], tag, c).
Theorem C99_unbounded_refuted :
  exists m nact small, In (m, nact, small) shipped /\
  (forall i room tag c r w t c', forever_act i room tag c = (r, w, t, c') -> w = []) /\
  forall avail n, 0 <= avail ->
  exists s, encoder small forever_act nact m avail n tt = Go (inl s).
Proof.
  exists x509_eku_machine, x509_eku_actions, true. split; [cbn; tauto|]. split.
  - intros i room tag c r w t c' H. injection H as <- <- <- <-. reflexivity.
  - intros avail n Av. unfold encoder, ber_encoder_small.
    set (ml := maxlen_of 256 avail).
    assert (Ml : 0 <= ml) by (unfold ml, maxlen_of; lia). clearbody ml.
    assert (H : exists s c, erun unit forever_act x509_eku_actions x509_eku_machine 4 ml 256 n (est0, tt) = Go (inl (s, c)) /\
      (s = est0 \/ (exists t, s = mkest 2 [] [(Some [], t); (Some [], 48)] [] 0) \/
       exists t, s = mkest 5 [] [(Some [], t); (Some [], 48)] [] 4)).
    { induction n as [|n (s & [] & E & Cs)].
      - exists est0, tt. split; [reflexivity|]. left. reflexivity.
      - rewrite (erun_S _ _ _ _ _ _ _ _ _ _ E). clear E.
        destruct Cs as [->|[[t ->]|[t ->]]].
        + eexists. exists tt. split; [reflexivity|]. right. left. eexists. reflexivity.
        + eexists. exists tt. split.
          * cbv - [Z.sub Z.gtb]. rewrite Z.sub_0_r.
            destruct (Z.gtb_spec 0 ml); [lia|]. reflexivity.
          * right. right. eexists. reflexivity.
        + eexists. exists tt. split; [reflexivity|]. right. left. eexists. reflexivity. }
    destruct H as (s & c & -> & _). eexists. reflexivity.
Qed.
Print Assumptions C99_unbounded_refuted.
