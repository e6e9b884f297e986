(** * The encoder: invariants of the machine *)
From Coq Require Import ZArith List Lia Bool.
From Verif Require Import Asn1Model Asn1Tables Asn1DerSpec Asn1EncModel Asn1EncSpec.
Import ListNotations.
Open Scope Z_scope.

(** ** The control states: pc, jump stack, levels in use less one, MATCHED *)
Definition astate : Type := (Z * list Z * Z * bool)%type.

Definition zlist_eqb (a b : list Z) : bool :=
  (fix go (a b : list Z) := match a, b with
    | [], [] => true
    | x :: a, y :: b => (x =? y) && go a b
    | _, _ => false
    end) a b.

Definition astate_eqb (a b : astate) : bool :=
  let '(p, j, d, m) := a in
  let '(p', j', d', m') := b in
  (p =? p') && (d =? d') && Bool.eqb m m' && zlist_eqb j j'.

(** actions called at the end of a constructed value *)
Fixpoint end_action (machine : list Z) (i : Z) : bool :=
  match machine with
  | [] => false
  | op :: l =>
      (if end_op op && has op 4 then
         match (if has op 2 then tl l else l) with a :: _ => a =? i | [] => false end
       else false) || end_action l i
  end.

Section Ctl.
Variable nact : Z.
Variable machine : list Z.
Variable max_level max_stack : Z.

Definition rdo (l : list Z) (i : Z) : option Z :=
  match rd l i with Go x => Some x | _ => None end.

Definition isact (i : option Z) : bool :=
  match i with Some a => (0 <=? a) && (a <? nact) | None => false end.

(** an action called elsewhere *)
Definition isleaf (i : option Z) : bool :=
  isact i && match i with Some a => negb (end_action machine a) | None => false end.

Definition lvl (c : bool) : Z := if c then 1 else 0.

(** the control states one operation may lead to; the flag marks the edges
    taken only after LC_ASN1_RET_CONTINUE.  [None]: something may go wrong. *)
Definition asucc (a : astate) : option (list (bool * astate)) :=
  let '(pc, js, d, mt) := a in
  match rdo machine pc with
  | None => None
  | Some op =>
  match rdo op_lengths op with
  | None => None
  | Some oplen =>
    if (emachlen machine <=? pc) || (emachlen machine <? pc + oplen) then None
    else if leaf_op op then
      match rdo machine (pc + 1) with
      | None => None
      | Some t =>
          let c := negb (has op 8) && has t 32 in
          if c && (d + 1 =? max_level) then None
          else if has op 2 &&
                  (has t 32 ||
                   negb (isleaf (if has op 8 then Some t else rdo machine (pc + 2))))
          then None
          else Some [(false, (pc + oplen, js, d + lvl c, mt))]
      end
    else if jump_op op then
      match rdo machine (pc + 1), rdo machine (pc + 2) with
      | Some t, Some tgt =>
          let c := negb (has op 8) && has t 32 in
          if (c && (d + 1 =? max_level)) || (llen js =? max_stack) ||
             (llen js >=? max_level) then None
          else Some ((false, (tgt, (pc + oplen) mod 256 :: js, d + lvl c, mt)) ::
                     (if (op =? 21) && mt then [(false, (pc + oplen, js, d, mt))] else []))
      | _, _ => None
      end
    else if op =? 28 then
      if mt then Some [(false, (pc + oplen, js, d, mt))] else None
    else if op =? 29 then
      match js with [] => if d =? 0 then Some [] else None | _ => None end
    else if end_op op then
      if d <=? 0 then None
      else if has op 4 && negb (isact (rdo machine (pc + (if has op 2 then 2 else 1))))
      then None
      else
        match (if has op 2 then rdo machine (pc + 1) else Some 0) with
        | None => None
        | Some tgt =>
            Some ((if has op 2 then [(true, (tgt, js, d, mt))] else []) ++
                  [(false, (pc + oplen, js, d - 1, mt))])
        end
    else if (op =? 30) || (op =? 31) then
      if isleaf (rdo machine (pc + 1)) then Some [(false, (pc + oplen, js, d, mt))]
      else None
    else if op =? 40 then
      match js with
      | [] => None
      | t :: j => Some [(false, (t, j, d, true))]
      end
    else None
  end
  end.

(** a certificate lists the control states so that every edge not taken after
    a CONTINUE leads further down the list *)
Definition member (a : astate) (l : list astate) : bool := existsb (astate_eqb a) l.

Fixpoint order_ok (all l : list astate) : bool :=
  match l with
  | [] => true
  | a :: l' =>
      match asucc a with
      | None => false
      | Some es => forallb (fun e : bool * astate => if fst e then member (snd e) all
                                     else member (snd e) l') es
      end && order_ok all l'
  end.

(** finding one: depth first, in reverse postorder *)
Fixpoint dfs (n : nat) (a : astate) (vis : list astate) : list astate :=
  match n with
  | O => vis
  | S n =>
      if member a vis then vis
      else a :: match asucc a with
                | None => vis
                | Some es =>
                    fold_left (fun v (e : bool * astate) => if fst e then v else dfs n (snd e) v) es vis
                end
  end.

(** then from the targets of the CONTINUE edges not met so far *)
Definition more (l : list astate) : list astate :=
  fold_left (fun v a =>
    match asucc a with
    | None => v
    | Some es => fold_left (fun v (e : bool * astate) =>
                              if fst e then dfs 300 (snd e) v else v) es v
    end) l l.

Definition find_order : list astate := more (more (dfs 300 (0, [], 0, false) [])).

Definition enc_ok : bool :=
  let l := find_order in
  match machine with op :: _ => leaf_op op | [] => false end &&
  (2 <=? max_level) &&
  member (0, [], 0, false) l && order_ok l l.
End Ctl.

Definition enc_tables : list (list Z * Z) :=
  [ (pkcs7_machine, pkcs7_actions); (x509_machine, x509_actions);
    (x509_akid_machine, x509_akid_actions); (x509_san_machine, x509_san_actions);
    (x509_mldsa_privkey_machine, x509_mldsa_privkey_actions);
    (x509_slhdsa_privkey_machine, x509_slhdsa_privkey_actions);
    (x509_composite_mldsa_privkey_machine, x509_composite_mldsa_privkey_actions);
    (x509_composite_mldsa_pubkey_machine, x509_composite_mldsa_pubkey_actions);
    (x509_composite_mldsa_signature_machine, x509_composite_mldsa_signature_actions) ].
Definition enc_small_tables : list (list Z * Z) :=
  [ (pkcs7_aa_machine, pkcs7_aa_actions); (x509_eku_machine, x509_eku_actions);
    (x509_basic_constraints_machine, x509_basic_constraints_actions);
    (x509_keyusage_machine, x509_keyusage_actions);
    (x509_skid_machine, x509_skid_actions) ].


(** ** Writing one value *)
Lemma encode_length_der avail len : 0 <= len ->
  match encode_length avail len with
  | Go (lb, a) => lb = der_len len /\ a = avail - llen lb /\ 0 <= a
  | Fin r => r = EINVAL_
  | Bad => False
  end.
Proof.
  intro H. unfold encode_length.
  destruct (avail <? 1) eqn:E1; [reflexivity|].
  apply Z.ltb_ge in E1.
  destruct (len <=? 127) eqn:E2.
  { unfold der_len. apply Z.leb_le in E2.
    replace (len <? 128) with true by (symmetry; apply Z.ltb_lt; lia).
    cbn. repeat split; lia. }
  apply Z.leb_gt in E2.
  destruct (avail <? 2) eqn:E3; [reflexivity|]. apply Z.ltb_ge in E3.
  assert (L : forall x, Z.land x 255 = x mod 256)
    by (intro x; change 255 with (Z.ones 8); apply Z.land_ones; lia).
  destruct (len <=? 255) eqn:E4.
  { apply Z.leb_le in E4. unfold der_len.
    replace (len <? 128) with false by (symmetry; apply Z.ltb_ge; lia).
    replace (len <? 256) with true by (symmetry; apply Z.ltb_lt; lia).
    rewrite L, Z.mod_small by lia. cbn. repeat split; lia. }
  apply Z.leb_gt in E4.
  destruct (avail <? 3) eqn:E5; [reflexivity|]. apply Z.ltb_ge in E5.
  destruct (len <=? 65535) eqn:E6.
  { apply Z.leb_le in E6. unfold der_len.
    replace (len <? 128) with false by (symmetry; apply Z.ltb_ge; lia).
    replace (len <? 256) with false by (symmetry; apply Z.ltb_ge; lia).
    replace (len <? 65536) with true by (symmetry; apply Z.ltb_lt; lia).
    rewrite !L, Z.shiftr_div_pow2 by lia. change (2 ^ 8) with 256.
    rewrite (Z.mod_small (len / 256)) by (split; [apply Z.div_pos; lia|apply Z.div_lt_upper_bound; lia]).
    cbn. repeat split; lia. }
  apply Z.leb_gt in E6.
  destruct (len >? 16777215) eqn:E7; [reflexivity|]. rewrite Z.gtb_ltb in E7. apply Z.ltb_ge in E7.
  destruct (avail <? 4) eqn:E8; [reflexivity|]. apply Z.ltb_ge in E8.
  unfold der_len.
  replace (len <? 128) with false by (symmetry; apply Z.ltb_ge; lia).
  replace (len <? 256) with false by (symmetry; apply Z.ltb_ge; lia).
  replace (len <? 65536) with false by (symmetry; apply Z.ltb_ge; lia).
  rewrite !L, !Z.shiftr_div_pow2 by lia. change (2 ^ 8) with 256. change (2 ^ 16) with 65536.
  rewrite (Z.mod_small (len / 65536)) by (split; [apply Z.div_pos; lia|apply Z.div_lt_upper_bound; lia]).
  cbn. repeat split; lia.
Qed.

Lemma write_tlv_ok maxlen dst t v :
  match write_tlv maxlen dst t v with
  | Go d => d = dst ++ tlv t v /\ llen d <= maxlen
  | Fin r => r = EINVAL_ \/ r = EOVERFLOW_
  | Bad => False
  end.
Proof.
  unfold write_tlv.
  destruct (maxlen - llen dst <? 1) eqn:E; [right; reflexivity|].
  pose proof (encode_length_der (maxlen - llen dst - 1) (llen v) ltac:(unfold llen; lia)) as H.
  destruct (encode_length (maxlen - llen dst - 1) (llen v)) as [[lb a]|r|]; cbn [bind].
  - destruct H as (-> & -> & H). destruct (_ <? llen v) eqn:F; [right; reflexivity|].
    apply Z.ltb_ge in F. unfold tlv. split; [reflexivity|].
    unfold llen in *. rewrite !app_length. cbn [length]. rewrite app_length. lia.
  - left. exact H.
  - exact H.
Qed.

Lemma tlv_nonempty t v : tlv t v <> [].
Proof. discriminate. Qed.

Lemma enc_nonempty x : enc x <> [].
Proof. destruct x; discriminate. Qed.

Lemma flat_enc_nil f : flat_map enc f = [] -> f = [].
Proof.
  destruct f as [|x f]; [reflexivity|]. cbn. intro H.
  apply app_eq_nil in H. destruct H as [H _]. elim (enc_nonempty x H).
Qed.

Lemma rd_rdo l i x : rdo l i = Some x -> rd l i = Go x.
Proof. unfold rdo. destruct (rd l i); congruence. Qed.

Lemma isact_some nact o : isact nact o = true ->
  exists a, o = Some a /\ (0 <=? a) && (a <? nact) = true.
Proof. destruct o; cbn; [eauto|discriminate]. Qed.

Lemma isleaf_some nact m o : isleaf nact m o = true ->
  exists a, o = Some a /\ (0 <=? a) && (a <? nact) = true /\ end_action m a = false.
Proof.
  unfold isleaf. destruct o as [a|]; cbn; [|discriminate]. intro H.
  apply andb_true_iff in H. destruct H as [H1 H2]. apply negb_true_iff in H2. eauto.
Qed.

Lemma zlist_eqb_ok a : forall b, zlist_eqb a b = true -> a = b.
Proof.
  induction a as [|x a IH]; intros [|y b] H; cbn in H; try discriminate; [reflexivity|].
  apply andb_true_iff in H. destruct H as [H1 H2]. apply Z.eqb_eq in H1.
  rewrite (IH b H2). congruence.
Qed.
Lemma astate_eqb_ok a b : astate_eqb a b = true -> a = b.
Proof.
  destruct a as [[[p j] d] m], b as [[[p' j'] d'] m']. cbn.
  rewrite !andb_true_iff. intros (((A & B) & D) & E).
  apply Z.eqb_eq in A. apply Z.eqb_eq in B. apply eqb_prop in D. apply zlist_eqb_ok in E.
  congruence.
Qed.

(** [clear] and the flag tests *)
Lemma has_tb f b k : b = 2 ^ k -> 0 <= k -> has f b = Z.testbit f k.
Proof.
  intros -> H. unfold has. destruct (Z.testbit f k) eqn:E.
  - apply negb_true_iff, Z.eqb_neq. intro A.
    assert (B : Z.testbit (Z.land f (2 ^ k)) k = true)
      by (rewrite Z.land_spec, E, Z.pow2_bits_true; [reflexivity|exact H]).
    rewrite A, Z.testbit_0_l in B. discriminate.
  - apply negb_false_iff, Z.eqb_eq. apply Z.bits_inj'. intros n Hn.
    rewrite Z.land_spec, Z.testbit_0_l. destruct (Z.eq_dec n k) as [->|N].
    + rewrite E. reflexivity.
    + rewrite Z.pow2_bits_false by lia. apply andb_false_r.
Qed.
Lemma fl_M f : has f E_MATCHED = Z.testbit f 0. Proof. apply has_tb; [reflexivity|lia]. Qed.
Lemma fl_L f : has f E_LAST = Z.testbit f 1. Proof. apply has_tb; [reflexivity|lia]. Qed.
Lemma fl_C f : has f E_CONT = Z.testbit f 2. Proof. apply has_tb; [reflexivity|lia]. Qed.
Lemma fl_Z f : has f E_ZERO = Z.testbit f 3. Proof. apply has_tb; [reflexivity|lia]. Qed.
Lemma fl_32 f : has f 32 = Z.testbit f 5. Proof. apply has_tb; [reflexivity|lia]. Qed.

(** ** The invariant *)
Local Arguments Z.testbit : simpl never.
Section Inv.
Variable C : Type.
Variable act : Z -> Z -> Z -> C -> Z * list Z * Z * C.
Variable nact : Z.
Variable machine : list Z.
Variable max_level maxlen max_stack : Z.
(** what the actions may return when they fail; the calls made so far; a bound
    on the CONTINUEs to come *)
Variable errs : Z -> Prop.
Variable L : C -> list (Z * list Z * Z).
Variable mu : C -> nat.
Variable counted : Prop.
Hypothesis act_room : forall i room tag c r w t c',
  act i room tag c = (r, w, t, c') -> 0 <= r -> 0 <= room -> llen w <= room.
Hypothesis maxlen_pos : 0 <= maxlen.
Hypothesis act_errs : forall i room tag c r w t c',
  act i room tag c = (r, w, t, c') -> r < 0 -> errs r.
Hypothesis act_log : forall i room tag c r w t c',
  act i room tag c = (r, w, t, c') -> 0 <= r ->
  L c' = if end_action machine i then L c else L c ++ [(r, w, t)].
Hypothesis act_mu : counted -> forall i room tag c r w t c',
  act i room tag c = (r, w, t, c') -> 0 <= r ->
  (mu c' + (if (r =? 1)%Z then 1 else 0) <= mu c)%nat.
(** a call shows up in the output if it wrote something or asked for an empty
    value *)
Definition kept (e : Z * list Z * Z) : bool :=
  let '(r, w, _) := e in negb (llen w =? 0) || (r =? 2).
Definition shown (c : C) : list (Z * list Z) :=
  map (fun e => (snd e, snd (fst e))) (filter kept (L c)).

(** the levels below the top hold encoded values *)
Fixpoint lower (rest : list (option (list Z) * Z)) (main : list Z)
  (lf : list (Z * list Z)) : Prop :=
  match rest with
  | [] => exists f, main = flat_map enc f /\ lf = flat_map leaves f /\
                    forallb cons_tags f = true /\ llen main <= maxlen
  | (o, t) :: rest =>
      exists p f lf', o = Some p /\ p = flat_map enc f /\
        lf = lf' ++ flat_map leaves f /\ forallb cons_tags f = true /\
        Z.testbit t 5 = true /\ llen p <= maxlen /\ lower rest main lf'
  end.

Definition parent (rest : list (option (list Z) * Z)) (main : list Z) : list Z :=
  match rest with (Some p, _) :: _ => p | _ => main end.
Definition put (rest : list (option (list Z) * Z)) (p : list Z) :=
  match rest with (_, t) :: r => (Some p, t) :: r | [] => [] end.
Definition putm (rest : list (option (list Z) * Z)) (main p : list Z) : list Z :=
  match rest with [] => p | _ => main end.

Lemma lower_add rest main lf x p' :
  lower rest main lf -> cons_tags x = true ->
  p' = parent rest main ++ enc x -> llen p' <= maxlen ->
  lower (put rest p') (putm rest main p') (lf ++ leaves x).
Proof.
  destruct rest as [|[o t] rest]; cbn [lower parent put putm].
  - intros (f & -> & -> & F & _) X -> Hl. exists (f ++ [x]).
    rewrite !flat_map_app, forallb_app, F. cbn. rewrite !app_nil_r, X.
    repeat split; assumption.
  - intros (p & f & lf' & -> & -> & -> & F & T & _ & R) X -> Hl.
    exists (flat_map enc f ++ enc x), (f ++ [x]), lf'.
    rewrite !flat_map_app, forallb_app, F. cbn. rewrite !app_nil_r, X, app_assoc.
    repeat split; assumption.
Qed.

Lemma write_out_spec oplen s v t rest lf :
  e_lv s = (Some v, t) :: rest -> lower rest (e_main s) lf ->
  if (llen v =? 0) && negb (has (e_flags s) E_ZERO) then
    write_out maxlen oplen s =
      Go (mkest (e_pc s + oplen) (e_main s) (e_lv s) (e_js s) (e_flags s))
  else
    match write_out maxlen oplen s with
    | Go s' => exists p', p' = parent rest (e_main s) ++ tlv t v /\ llen p' <= maxlen /\
        s' = mkest (e_pc s + oplen) (putm rest (e_main s) p')
               ((Some [], t) :: put rest p') (e_js s) (clear (e_flags s) E_ZERO)
    | Fin r => r = EINVAL_ \/ r = EOVERFLOW_
    | Bad => False
    end.
Proof.
  intros E Lo. unfold write_out. rewrite E.
  destruct ((llen v =? 0) && negb (has (e_flags s) E_ZERO)) eqn:Z0; [reflexivity|].
  destruct rest as [|[o pt] rest].
  - pose proof (write_tlv_ok maxlen (e_main s) t v) as W.
    destruct (write_tlv maxlen (e_main s) t v) as [d|r|]; cbn [bind]; try exact W.
    destruct W as [-> W]. exists (e_main s ++ tlv t v). cbn [parent putm put]. auto.
  - destruct Lo as (p & f & lf' & -> & _).
    pose proof (write_tlv_ok maxlen p t v) as W.
    destruct (write_tlv maxlen p t v) as [d|r|]; cbn [bind]; try exact W.
    destruct W as [-> W]. exists (p ++ tlv t v). cbn [parent putm put]. auto.
Qed.

(** the control part of a state *)
Definition ctl (s : est) : astate :=
  (e_pc s, e_js s, llen (map snd (e_lv s)) - 1, Z.testbit (e_flags s) 0).

Record inv (s : est) (c : C) : Prop := mkinv {
  i_lv : exists t rest, e_lv s = (Some [], t) :: rest /\ lower rest (e_main s) (shown c);
  i_zero : Z.testbit (e_flags s) 3 = false;
  i_last : Z.testbit (e_flags s) 1 = true -> Z.testbit (e_flags s) 0 = true }.

Definition cont (s : est) : nat := if Z.testbit (e_flags s) 2 then 1 else 0.

(** what one trip may do *)
Definition good_step (s : est) (c : C) (x : out (est * C + list Z * C)) : Prop :=
  match x with
  | Bad => False
  | Fin r => r = EINVAL_ \/ r = EOVERFLOW_ \/ errs r
  | Go (inr (d, c')) => c' = c /\
      exists f, d = flat_map enc f /\ shown c = flat_map leaves f /\
                forallb cons_tags f = true /\ llen d <= maxlen
  | Go (inl (s', c')) =>
      inv s' c' /\
      exists es e, asucc nact machine max_level max_stack (ctl s) = Some es /\ In e es /\
        snd e = ctl s' /\
        (counted -> if fst e then (mu c' + cont s' < mu c + cont s)%nat
                    else (mu c' + cont s' <= mu c + cont s)%nat)
  end.

Lemma lor_bit f k n : 0 <= k -> 0 <= n -> Z.testbit (Z.lor f (2 ^ k)) n = Z.testbit f n || (n =? k).
Proof.
  intros Hk Hn. rewrite Z.lor_spec. f_equal. destruct (Z.eqb_spec n k) as [->|N].
  - apply Z.pow2_bits_true. exact Hk.
  - apply Z.pow2_bits_false. lia.
Qed.

Lemma clear_bit f k n : 0 <= n < 8 -> 0 <= k < 8 ->
  Z.testbit (clear f (2 ^ k)) n = Z.testbit f n && negb (n =? k).
Proof.
  intros Hn Hk. unfold clear. rewrite Z.land_spec. f_equal.
  assert (K : k = 0 \/ k = 1 \/ k = 2 \/ k = 3 \/ k = 4 \/ k = 5 \/ k = 6 \/ k = 7) by lia.
  assert (N : n = 0 \/ n = 1 \/ n = 2 \/ n = 3 \/ n = 4 \/ n = 5 \/ n = 6 \/ n = 7) by lia.
  clear - K N.
  destruct K as [->|[->|[->|[->|[->|[->|[->| ->]]]]]]];
  destruct N as [->|[->|[->|[->|[->|[->|[->| ->]]]]]]]; reflexivity.
Qed.

Lemma shown_snoc c c' r w t : L c' = L c ++ [(r, w, t)] ->
  shown c' = shown c ++ (if kept (r, w, t) then [(t, w)] else []).
Proof.
  intro E. unfold shown. rewrite E, filter_app, map_app. f_equal.
  cbn [filter]. destruct (kept (r, w, t)); reflexivity.
Qed.

(** flags after an action which returned [r] *)
Definition fl_after (f r : Z) : Z :=
  let f := if r =? 1 then Z.lor f E_CONT else f in
  if r =? 2 then Z.lor f E_ZERO else f.

Lemma fl_after_bits f r :
  Z.testbit (fl_after f r) 0 = Z.testbit f 0 /\
  Z.testbit (fl_after f r) 1 = Z.testbit f 1 /\
  Z.testbit (fl_after f r) 2 = Z.testbit f 2 || (r =? 1) /\
  Z.testbit (fl_after f r) 3 = Z.testbit f 3 || (r =? 2).
Proof.
  unfold fl_after. change E_CONT with (2 ^ 2). change E_ZERO with (2 ^ 3).
  destruct (Z.eqb_spec r 1) as [->|N1]; [|destruct (Z.eqb_spec r 2) as [->|N2]];
    cbn [Z.eqb Pos.eqb].
  - rewrite !lor_bit by lia. cbn. rewrite ?orb_false_r. auto.
  - rewrite !lor_bit by lia. cbn. rewrite ?orb_false_r. auto.
  - rewrite ?orb_false_r. auto.
Qed.

Lemma call_enc_spec i s c t rest :
  (0 <=? i) && (i <? nact) = true ->
  e_lv s = (Some [], t) :: rest ->
  match call_enc C act nact maxlen i s c with
  | Bad => False
  | Fin r => errs r
  | Go (s', c') => exists r w t',
      act i maxlen t c = (r, w, t', c') /\ 0 <= r /\
      s' = mkest (e_pc s) (e_main s) ((Some w, t') :: rest) (e_js s) (fl_after (e_flags s) r) /\
      L c' = (if end_action machine i then L c else L c ++ [(r, w, t')]) /\
      (counted -> (mu c' + cont s' <= mu c + cont s)%nat)
  end.
Proof.
  intros Hi E. unfold call_enc. rewrite E, Hi.
  change (llen []) with 0. rewrite Z.sub_0_r.
  destruct (act i maxlen t c) as [[[r w] t'] c'] eqn:A.
  destruct (r <? 0) eqn:R.
  - apply Z.ltb_lt in R. exact (act_errs _ _ _ _ _ _ _ _ A R).
  - apply Z.ltb_ge in R. pose proof (act_room _ _ _ _ _ _ _ _ A R maxlen_pos) as Rm.
    rewrite Z.gtb_ltb. replace (maxlen <? llen w) with false by (symmetry; apply Z.ltb_ge; lia).
    exists r, w, t'. cbn [app]. split; [reflexivity|]. split; [exact R|]. split; [reflexivity|].
    split; [exact (act_log _ _ _ _ _ _ _ _ A R)|].
    intro Ct. pose proof (act_mu Ct _ _ _ _ _ _ _ _ A R) as M.
    unfold cont. cbn [e_flags].
    destruct (fl_after_bits (e_flags s) r) as (_ & _ & B & _).
    unfold fl_after in B. rewrite B.
    destruct (r =? 1), (Z.testbit (e_flags s) 2); cbn [orb]; lia.
Qed.

Definition lvn (l : list (option (list Z) * Z)) : Z := llen (map snd l).
Lemma lvn_put rest p : lvn (put rest p) = lvn rest.
Proof. destruct rest as [|[o t] r]; reflexivity. Qed.

(** an action and the value it wrote *)
Lemma leaf_spec i s c t rest oplen :
  (0 <=? i) && (i <? nact) = true -> end_action machine i = false ->
  e_lv s = (Some [], t) :: rest -> lower rest (e_main s) (shown c) ->
  Z.testbit (e_flags s) 3 = false ->
  (Z.testbit (e_flags s) 1 = true -> Z.testbit (e_flags s) 0 = true) ->
  match call_enc C act nact maxlen i s c with
  | Bad => False
  | Fin r => errs r
  | Go (s1, c') =>
      match write_out maxlen oplen s1 with
      | Bad => False
      | Fin r => r = EINVAL_ \/ r = EOVERFLOW_
      | Go s' => inv s' c' /\
          ctl s' = (e_pc s + oplen, e_js s, lvn (e_lv s) - 1, Z.testbit (e_flags s) 0) /\
          (counted -> (mu c' + cont s' <= mu c + cont s)%nat)
      end
  end.
Proof.
  intros Hi Hne E Lo Z3 LM.
  pose proof (call_enc_spec i s c t rest Hi E) as K.
  destruct (call_enc C act nact maxlen i s c) as [[s1 c']|r|]; try exact K.
  destruct K as (r & w & t' & A & R & -> & Lg & M). rewrite Hne in Lg.
  set (s1 := mkest _ _ _ _ _) in *.
  destruct (fl_after_bits (e_flags s) r) as (B0 & B1 & B2 & B3).
  pose proof (write_out_spec oplen s1 w t' rest (shown c) eq_refl Lo) as W.
  pose proof (shown_snoc c c' r w t' Lg) as Sh.
  assert (Kp : kept (r, w, t') = negb ((llen w =? 0) && negb (has (e_flags s1) E_ZERO))).
  { rewrite fl_Z. cbn [e_flags s1]. rewrite B3, Z3. cbn [orb kept].
    destruct (llen w =? 0), (r =? 2); reflexivity. }
  rewrite Kp in Sh.
  destruct ((llen w =? 0) && negb (has (e_flags s1) E_ZERO)) eqn:K0.
  - rewrite W. cbn [negb] in Sh. rewrite app_nil_r in Sh.
    apply andb_true_iff in K0. destruct K0 as [K0 K1].
    assert (w = []) as -> by (destruct w; [reflexivity|discriminate]).
    rewrite fl_Z in K1. apply negb_true_iff in K1.
    split; [|split].
    + constructor; cbn [e_lv e_flags e_main s1].
      * exists t', rest. split; [reflexivity|]. rewrite Sh. exact Lo.
      * exact K1.
      * rewrite B0, B1. exact LM.
    + unfold ctl. cbn [e_lv e_flags e_main e_pc e_js s1]. rewrite B0, E. reflexivity.
    + exact M.
  - cbn [negb] in Sh.
    destruct (write_out maxlen oplen s1) as [s'|q|]; try exact W.
    destruct W as (p' & Ep & Hp & ->). cbn [e_main e_pc e_js e_flags s1] in *.
    split; [|split].
    + constructor; cbn [e_lv e_flags e_main].
      * exists t', (put rest p'). split; [reflexivity|]. rewrite Sh.
        change [(t', w)] with (leaves (Leaf t' w)).
        apply lower_add; [exact Lo|reflexivity|exact Ep|exact Hp].
      * change E_ZERO with (2 ^ 3). rewrite clear_bit by lia. apply andb_false_r.
      * change E_ZERO with (2 ^ 3). rewrite !clear_bit by lia. cbn [Z.eqb Pos.eqb negb].
        rewrite !andb_true_r, B0, B1. exact LM.
    + unfold ctl. cbn [e_lv e_flags e_main e_pc e_js].
      change E_ZERO with (2 ^ 3). rewrite clear_bit by lia. cbn [Z.eqb negb].
      rewrite andb_true_r, B0, E. f_equal. f_equal. f_equal.
      unfold lvn, llen. cbn [map length].
      pose proof (lvn_put rest p') as P. unfold lvn, llen in P. lia.
    + unfold cont in *. cbn [e_flags s1] in *. change E_ZERO with (2 ^ 3).
      rewrite clear_bit by lia. cbn [Z.eqb Pos.eqb negb]. rewrite andb_true_r. exact M.
Qed.

Notation STEP := (estep C act nact machine max_level maxlen max_stack).
Notation ASUCC := (asucc nact machine max_level max_stack).

Lemma rd_range l i x : rd l i = Go x -> 0 <= i < llen l.
Proof.
  unfold rd, llen. destruct ((0 <=? i) && (i <? Z.of_nat (length l))) eqn:E; [|discriminate].
  apply andb_true_iff in E. destruct E as [A B]. apply Z.leb_le in A. apply Z.ltb_lt in B. lia.
Qed.

Lemma end_action_at pc op a :
  rd machine pc = Go op -> end_op op = true -> has op 4 = true ->
  rdo machine (pc + (if has op 2 then 2 else 1)) = Some a -> end_action machine a = true.
Proof.
  clear. intros Ho He H4. unfold rdo.
  destruct (rd machine (pc + (if has op 2 then 2 else 1))) as [b|r|] eqn:Hb; try discriminate.
  intro X. injection X as ->. pose proof (rd_range _ _ _ Ho) as R.
  revert pc Ho Hb R. induction machine as [|x l IH]; intros pc Ho Hb R; [cbn in R; lia|].
  assert (K : pc = 0 \/ 0 < pc) by lia. destruct K as [->|K].
  - injection Ho as <-. cbn [end_action]. rewrite He, H4. cbn [andb].
    apply orb_true_iff. left. pose proof (rd_range _ _ _ Hb) as R'. unfold llen in R'. cbn [length] in R'.
    destruct (has x 2); cbn [tl].
    + destruct l as [|y [|z l]]; cbn [length tl] in *; try lia.
      unfold rd in Hb. destruct (_ && _) in Hb; [|discriminate]. injection Hb as <-. apply Z.eqb_refl.
    + destruct l as [|y l]; cbn [length] in *; try lia.
      unfold rd in Hb. destruct (_ && _) in Hb; [|discriminate]. injection Hb as <-. apply Z.eqb_refl.
  - cbn [end_action]. apply orb_true_iff. right.
    assert (Sh : forall j y, 0 < j -> rd (x :: l) j = Go y -> rd l (j - 1) = Go y).
    { intros j y Hj Hy. pose proof (rd_range _ _ _ Hy) as Rj. unfold llen in Rj. cbn [length] in Rj.
      unfold rd in *. rewrite (proj2 (Z.leb_le 0 j)) in Hy by lia.
      rewrite (proj2 (Z.ltb_lt j _)) in Hy by (cbn [length]; lia).
      rewrite (proj2 (Z.leb_le 0 (j - 1))) by lia.
      rewrite (proj2 (Z.ltb_lt (j - 1) _)) by lia. cbn [andb] in *.
      replace (Z.to_nat j) with (S (Z.to_nat (j - 1))) in Hy by lia. exact Hy. }
    apply (IH (pc - 1)).
    + apply Sh; [lia|exact Ho].
    + replace (pc - 1 + (if has op 2 then 2 else 1)) with (pc + (if has op 2 then 2 else 1) - 1) by lia.
      apply Sh; [destruct (has op 2); lia|exact Hb].
    + unfold llen in R |- *. cbn [length] in R. lia.
Qed.

(** an operation which leaves the output alone *)
Lemma quiet_step s c s' b es :
  inv s c ->
  ASUCC (ctl s) = Some es -> In (b, ctl s') es ->
  (exists t t' rest, e_lv s = (Some [], t) :: rest /\
     (e_lv s' = (Some [], t') :: rest \/
      (Z.testbit t' 5 = true /\ exists u, e_lv s' = (Some [], u) :: (Some [], t') :: rest))) ->
  e_main s' = e_main s -> 0 <= maxlen ->
  Z.testbit (e_flags s') 3 = false ->
  (Z.testbit (e_flags s') 1 = true -> Z.testbit (e_flags s') 0 = true) ->
  (if b then (cont s' < cont s)%nat else (cont s' <= cont s)%nat) ->
  good_step s c (Go (inl (s', c))).
Proof.
  intros [(t0 & rest0 & E0 & Lo) _ _] Ha Hin (t & t' & rest & E & Cs) Em Hm F3 FL Hc.
  rewrite E0 in E. injection E as <- <-. cbn [good_step]. split.
  - constructor; [|exact F3|exact FL]. rewrite Em. destruct Cs as [Cs|(T & u & Cs)].
    + exists t', rest0. split; [exact Cs|exact Lo].
    + exists u, ((Some [], t') :: rest0). split; [exact Cs|].
      exists [], [], (shown c). rewrite app_nil_r.
      repeat split; [exact T|exact Hm|exact Lo].
  - exists es, (b, ctl s'). split; [exact Ha|]. split; [exact Hin|]. split; [reflexivity|].
    cbn [fst]. intros _. destruct b; lia.
Qed.

Ltac ctleq := repeat match goal with |- (_, _) = (_, _) => apply f_equal2 end; try reflexivity.


Lemma ctl_eta s : ctl s = (e_pc s, e_js s, lvn (e_lv s) - 1, Z.testbit (e_flags s) 0).
Proof. reflexivity. Qed.

Lemma step_good s c : inv s c -> ASUCC (ctl s) <> None -> good_step s c (STEP (s, c)).
Proof using act_errs act_room act_log act_mu maxlen_pos.
  intros I HA. pose proof I as [(t0 & rest & E & Lo) F3 FL].
  destruct (ASUCC (ctl s)) as [es|] eqn:As; [|congruence]. clear HA.
  pose proof As as As0. rewrite ctl_eta in As. unfold asucc in As.
  destruct (rdo machine (e_pc s)) as [op|] eqn:Ro; [|discriminate]. apply rd_rdo in Ro.
  destruct (rdo op_lengths op) as [oplen|] eqn:Rl; [|discriminate]. apply rd_rdo in Rl.
  destruct (emachlen machine <=? e_pc s) eqn:G1; [discriminate|]. cbn [orb] in As.
  destruct (emachlen machine <? e_pc s + oplen) eqn:G2; [discriminate|].
  unfold estep. rewrite G1, Ro. cbn [bind]. rewrite Rl. cbn [bind]. rewrite G2.
  destruct (leaf_op op) eqn:Lf.
  { destruct (rdo machine (e_pc s + 1)) as [t|] eqn:Rt; [|discriminate]. apply rd_rdo in Rt.
    unfold enc_match. rewrite Rt. cbn [bind].
    assert (Ef : fresh t s = mkest (e_pc s) (e_main s) ((Some [], t) :: rest) (e_js s) (e_flags s))
      by (unfold fresh; rewrite E; reflexivity).
    rewrite Ef. unfold check_seq. cbn [e_lv].
    destruct (negb (has op 8) && has t 32) eqn:Cn.
    - cbn [andb] in As.
      assert (Ln : llen (map snd ((Some (@nil Z), t) :: rest)) = lvn (e_lv s) - 1 + 1)
        by (rewrite E; unfold lvn, llen; cbn [map length]; lia).
      rewrite Ln. destruct (lvn (e_lv s) - 1 + 1 =? max_level) eqn:Mx; [discriminate|].
      cbn [bind e_pc].
      apply andb_true_iff in Cn. destruct Cn as [C8 C32]. rewrite C32 in *.
      destruct (has op 2) eqn:A2; [discriminate|]. cbn [andb negb bind] in *.
      injection As as As.
      apply (quiet_step s c _ false es I As0).
      + subst es. left. unfold ctl, set_pc. cbn [e_pc e_js e_lv e_flags].
        ctleq. cbn [lvl].
        unfold lvn, llen. rewrite E. cbn [map length]. lia.
      + exists t0, t, rest. split; [exact E|]. right. rewrite <- fl_32. split; [exact C32|].
        exists 0. reflexivity.
      + reflexivity.
      + exact maxlen_pos.
      + exact F3.
      + exact FL.
      + apply Nat.le_refl.
    - cbn [bind e_pc] in *. cbn [andb] in As.
      destruct (has op 2) eqn:A2.
      + cbn [andb] in As. destruct (has t 32) eqn:C32; [discriminate|]. cbn [orb] in As.
        destruct (isleaf nact machine (if has op 8 then Some t else rdo machine (e_pc s + 2))) eqn:IA;
          [|discriminate]. cbn [negb] in As. injection As as As.
        destruct (isleaf_some _ _ _ IA) as (a & Ea & Ia & Hne).
        assert (Ra : (if has op 8 then Go t else rd machine (e_pc s + 2)) = Go a).
        { destruct (has op 8); [congruence|]. apply rd_rdo. exact Ea. }
        rewrite Ra. cbn [bind].
        set (s1 := mkest _ _ _ _ _).
        pose proof (leaf_spec a s1 c t rest oplen Ia Hne eq_refl Lo F3 FL) as K.
        destruct (call_enc C act nact maxlen a s1 c) as [[s2 c2]|q|]; cbn [bind good_step];
          [|right; right; exact K|exact K].
        destruct (write_out maxlen oplen s2) as [s3|q|]; cbn [bind good_step];
          [|destruct K as [K|K]; [left|right; left]; exact K|exact K].
        destruct K as (K1 & K2 & K3). split; [exact K1|].
        exists es, (false, ctl s3). split; [exact As0|]. split; [|split; [reflexivity|exact K3]].
        subst es. left. rewrite K2. cbn [e_pc e_js e_lv e_flags s1 lvl].
        ctleq. rewrite E. unfold lvn, llen. cbn [map length]. lia.
      + cbn [andb] in As. injection As as As.
        assert (Q : forall s', s' = mkest (e_pc s + oplen) (e_main s) ((Some [], t) :: rest) (e_js s) (e_flags s) ->
                    good_step s c (Go (inl (s', c)))).
        { intros s' ->. apply (quiet_step s c _ false es I As0).
          - subst es. left. unfold ctl. cbn [e_pc e_js e_lv e_flags lvl].
            rewrite E. ctleq. unfold lvn, llen. cbn [map length]. lia.
          - exists t0, t, rest. split; [exact E|]. left. reflexivity.
          - reflexivity.
          - exact maxlen_pos.
          - exact F3.
          - exact FL.
          - apply Nat.le_refl. }
        destruct (negb (has t 32) && negb (op =? 0)).
        * set (s1 := mkest _ _ _ _ _).
          pose proof (write_out_spec oplen s1 [] t rest (shown c) eq_refl Lo) as W.
          cbn [e_flags s1] in W. rewrite fl_Z, F3 in W. cbn [llen length Z.of_nat Z.eqb andb negb] in W.
          rewrite W. cbn [bind]. apply Q. reflexivity.
        * cbn [bind]. apply Q. reflexivity. }
  destruct (jump_op op) eqn:Jp.
  { destruct (rdo machine (e_pc s + 1)) as [t|] eqn:Rt; [|discriminate]. apply rd_rdo in Rt.
    destruct (rdo machine (e_pc s + 2)) as [tgt|] eqn:Rg; [|discriminate]. apply rd_rdo in Rg.
    set (cc := negb (has op 8) && has t 32) in *.
    destruct (cc && (lvn (e_lv s) - 1 + 1 =? max_level)) eqn:Mx; [discriminate|].
    cbn [orb] in As.
    destruct (llen (e_js s) =? max_stack) eqn:J1; [discriminate|].
    destruct (llen (e_js s) >=? max_level) eqn:J2; [discriminate|]. cbn [orb] in As.
    injection As as As. unfold enc_jump.
    destruct ((op =? 21) && has (e_flags s) E_LAST) eqn:Sk.
    - cbn [bind]. apply andb_true_iff in Sk. destruct Sk as [S1 S2]. rewrite fl_L in S2.
      pose proof (FL S2) as M0. rewrite S1, M0 in As. cbn [andb] in As.
      apply (quiet_step s c _ false es I As0).
      + subst es. right. left. unfold ctl, set_pc, set_flags. cbn [e_pc e_js e_lv e_flags].
        change E_LAST with (2 ^ 1). rewrite clear_bit by lia. rewrite M0. reflexivity.
      + exists t0, t0, rest. split; [exact E|]. left. exact E.
      + reflexivity.
      + exact maxlen_pos.
      + cbn [set_pc set_flags e_flags]. change E_LAST with (2 ^ 1). rewrite clear_bit by lia.
        rewrite F3. reflexivity.
      + cbn [set_pc set_flags e_flags]. change E_LAST with (2 ^ 1). rewrite !clear_bit by lia.
        cbn [Z.eqb Pos.eqb negb]. rewrite andb_false_r. discriminate.
      + unfold cont. cbn [set_pc set_flags e_flags]. change E_LAST with (2 ^ 1). rewrite !clear_bit by lia.
        cbn [Z.eqb Pos.eqb negb]. rewrite andb_true_r. lia.
    - rewrite J1, J2, Rt. cbn [bind]. rewrite Rg. cbn [bind]. unfold check_seq, set_tag.
      cbn [e_lv]. rewrite E. fold cc.
      destruct cc eqn:Cc.
      + assert (Ln : llen (map snd ((Some (@nil Z), t) :: rest)) = lvn (e_lv s) - 1 + 1)
          by (rewrite E; unfold lvn, llen; cbn [map length]; lia).
        rewrite Ln. cbn [andb] in Mx. rewrite Mx. cbn [bind].
        apply (quiet_step s c _ false es I As0).
        * subst es. left. unfold ctl, set_pc. cbn [e_pc e_js e_lv e_flags lvl].
          rewrite E. ctleq. unfold lvn, llen. cbn [map length]. lia.
        * exists t0, t, rest. split; [exact E|]. right. rewrite <- fl_32.
          subst cc. apply andb_true_iff in Cc. split; [tauto|]. exists 0. reflexivity.
        * reflexivity.
        * exact maxlen_pos.
        * exact F3.
        * exact FL.
        * apply Nat.le_refl.
      + cbn [bind]. apply (quiet_step s c _ false es I As0).
        * subst es. left. unfold ctl, set_pc. cbn [e_pc e_js e_lv e_flags lvl].
          rewrite E. ctleq. unfold lvn, llen. cbn [map length]. lia.
        * exists t0, t, rest. split; [exact E|]. left. reflexivity.
        * reflexivity.
        * exact maxlen_pos.
        * exact F3.
        * exact FL.
        * apply Nat.le_refl. }
  destruct (op =? 28) eqn:O28.
  { destruct (Z.testbit (e_flags s) 0) eqn:M0; [|discriminate]. injection As as As.
    rewrite fl_M, M0. cbn [negb].
    apply (quiet_step s c _ false es I As0).
    + subst es. left. unfold ctl, set_pc. cbn [e_pc e_js e_lv e_flags]. rewrite M0. reflexivity.
    + exists t0, t0, rest. split; [exact E|]. left. exact E.
    + reflexivity.
    + exact maxlen_pos.
    + exact F3.
    + intros _. exact M0.
    + apply Nat.le_refl. }
  destruct (op =? 29) eqn:O29.
  { destruct (e_js s); [|discriminate].
    destruct (lvn (e_lv s) - 1 =? 0) eqn:D0; [|discriminate]. rewrite E in *.
    destruct rest as [|y rest].
    - cbn [good_step]. split; [reflexivity|]. exact Lo.
    - exfalso. apply Z.eqb_eq in D0. unfold lvn, llen in D0. cbn [map length] in D0. lia. }
  destruct (end_op op) eqn:En.
  { destruct (lvn (e_lv s) - 1 <=? 0) eqn:D0; [discriminate|].
    destruct rest as [|[o pt] rest].
    { exfalso. apply Z.leb_gt in D0. rewrite E in D0. unfold lvn, llen in D0. cbn [map length] in D0. lia. }
    destruct (has op 4 && negb (isact nact (rdo machine (e_pc s + (if has op 2 then 2 else 1))))) eqn:IA;
      [discriminate|].
    destruct (if has op 2 then rdo machine (e_pc s + 1) else Some 0) as [tgt|] eqn:Tg; [|discriminate].
    injection As as As. unfold enc_end.
    destruct (has op 2 && has (e_flags s) E_CONT) eqn:Ct.
    - apply andb_true_iff in Ct. destruct Ct as [C1 C2]. rewrite C1 in Tg. apply rd_rdo in Tg.
      rewrite Tg. cbn [bind]. rewrite fl_C in C2.
      apply (quiet_step s c _ true es I As0).
      + subst es. rewrite C1. left. unfold ctl, set_pc, set_flags. cbn [e_pc e_js e_lv e_flags].
        change E_CONT with (2 ^ 2). rewrite clear_bit by lia. cbn [Z.eqb negb].
        rewrite andb_true_r. reflexivity.
      + exists t0, t0, ((o, pt) :: rest). split; [exact E|]. left. exact E.
      + reflexivity.
      + exact maxlen_pos.
      + cbn [set_pc set_flags e_flags]. change E_CONT with (2 ^ 2). rewrite clear_bit by lia.
        rewrite F3. reflexivity.
      + cbn [set_pc set_flags e_flags]. change E_CONT with (2 ^ 2). rewrite !clear_bit by lia.
        cbn [Z.eqb Pos.eqb negb]. rewrite !andb_true_r. exact FL.
      + unfold cont. cbn [set_pc set_flags e_flags]. change E_CONT with (2 ^ 2).
        rewrite !clear_bit by lia. cbn [Z.eqb Pos.eqb negb]. rewrite andb_false_r, C2. lia.
    - assert (K : match (if has op 4 then
                     a <- rd machine (e_pc s + (if has op 2 then 2 else 1)) ;;
                     call_enc C act nact maxlen a s c
                   else Go (s, c)) with
                  | Bad => False
                  | Fin r => errs r
                  | Go (s1, c1) => exists w t1,
                      e_pc s1 = e_pc s /\ e_main s1 = e_main s /\ e_js s1 = e_js s /\
                      e_lv s1 = (Some w, t1) :: (o, pt) :: rest /\ shown c1 = shown c /\
                      Z.testbit (e_flags s1) 0 = Z.testbit (e_flags s) 0 /\
                      Z.testbit (e_flags s1) 1 = Z.testbit (e_flags s) 1 /\
                      (counted -> (mu c1 + cont s1 <= mu c + cont s)%nat)
                  end).
      { destruct (has op 4) eqn:A4.
        - cbn [andb] in IA. apply negb_false_iff in IA.
          destruct (isact_some _ _ IA) as (a & Ea & Ia).
          pose proof (end_action_at _ _ _ Ro En A4 Ea) as EA.
          rewrite (rd_rdo _ _ _ Ea). cbn [bind].
          pose proof (call_enc_spec a s c t0 ((o, pt) :: rest) Ia E) as K.
          destruct (call_enc C act nact maxlen a s c) as [[s1 c1]|q|]; try exact K.
          destruct K as (r & w & t' & A & R & -> & Lg & M).
          rewrite EA in Lg.
          destruct (fl_after_bits (e_flags s) r) as (B0 & B1 & B2 & B3).
          exists w, t'. cbn [e_pc e_main e_js e_lv e_flags].
          repeat (split; [first [reflexivity|assumption]|]).
          split; [unfold shown; rewrite Lg; reflexivity|].
          split; [exact B0|]. split; [exact B1|]. exact M.
        - exists [], t0. repeat (split; [first [reflexivity|assumption]|]). intros _. apply Nat.le_refl. }
      destruct (if has op 4 then
                     a <- rd machine (e_pc s + (if has op 2 then 2 else 1)) ;;
                     call_enc C act nact maxlen a s c
                   else Go (s, c)) as [[s1 c1]|q|]; cbn [bind good_step];
        [|right; right; exact K|exact K].
      destruct K as (w & t1 & Kp & Km & Kj & Kl & Ks & K0 & K1 & Kc).
      rewrite Kl.
      destruct Lo as (p & f & lf & -> & -> & El & Fc & Tb & Hp & Lo).
      set (s2 := mkest _ _ _ _ _).
      assert (Lo2 : lower rest (e_main s2) lf) by (cbn [e_main s2]; rewrite Km; exact Lo).
      pose proof (write_out_spec oplen s2 (flat_map enc f) pt rest lf eq_refl Lo2) as W.
            assert (Inn : forall s', ctl s' = (e_pc s + oplen, e_js s, lvn (e_lv s) - 1 - 1, Z.testbit (e_flags s) 0) ->
                    In (false, ctl s') es).
      { intros s' ->. subst es. apply in_or_app. right. left. reflexivity. }
      destruct ((llen (flat_map enc f) =? 0) && negb (has (e_flags s2) E_ZERO)) eqn:F0.
      + rewrite W. cbn [bind good_step].
        apply andb_true_iff in F0. destruct F0 as [F0 K3]. apply negb_true_iff in K3.
        rewrite fl_Z in K3. cbn [e_flags s2] in K3.
        assert (En0 : flat_map enc f = []) by (destruct (flat_map enc f); [reflexivity|discriminate]).
        assert (f = []) as -> by (apply flat_enc_nil; exact En0).
        cbn [flat_map] in *. rewrite app_nil_r in El.
        set (s3 := mkest _ _ _ _ _).
        assert (Ci : cont s3 = cont s1) by reflexivity.
        split.
        * constructor; cbn [e_lv e_main e_flags s3 s2].
          { exists pt, rest. split; [reflexivity|]. rewrite Ks, El, Km. exact Lo. }
          { exact K3. }
          { rewrite K0, K1. exact FL. }
        * exists es, (false, ctl s3). split; [exact As0|]. split; [|split; [reflexivity|cbn [fst]; rewrite Ci; exact Kc]].
          apply Inn. unfold ctl. cbn [e_pc e_js e_lv e_flags s3 s2]. rewrite Kp, Kj, K0, E.
          ctleq. unfold lvn, llen. cbn [map length]. lia.
      + destruct (write_out maxlen oplen s2) as [s3|q|]; cbn [bind good_step];
          [|destruct W as [W|W]; [left|right; left]; exact W|exact W].
        destruct W as (p' & Ep & Hp' & ->). cbn [e_pc e_main e_js e_flags s2] in *.
        set (s3 := mkest _ _ _ _ _).
        assert (Bc : forall k, 0 <= k < 3 -> Z.testbit (clear (e_flags s1) E_ZERO) k = Z.testbit (e_flags s1) k).
        { intros k Hk. change E_ZERO with (2 ^ 3). rewrite clear_bit by lia.
          replace (k =? 3) with false by (symmetry; apply Z.eqb_neq; lia). apply andb_true_r. }
        assert (Ci : cont s3 = cont s1) by (unfold cont; cbn [e_flags s3]; rewrite Bc by lia; reflexivity).
        split.
        * constructor; cbn [e_lv e_main e_flags s3].
          { exists pt, (put rest p'). split; [reflexivity|]. rewrite Ks, El.
            change (flat_map leaves f) with (leaves (Node pt f)).
            apply lower_add; [exact Lo2|cbn [cons_tags]; rewrite Tb, Fc; reflexivity|exact Ep|exact Hp']. }
          { change E_ZERO with (2 ^ 3). rewrite clear_bit by lia. apply andb_false_r. }
          { rewrite !Bc by lia. rewrite K0, K1. exact FL. }
        * exists es, (false, ctl s3). split; [exact As0|]. split; [|split; [reflexivity|cbn [fst]; rewrite Ci; exact Kc]].
          apply Inn. unfold ctl. cbn [e_pc e_js e_lv e_flags s3]. rewrite Bc by lia. rewrite Kp, Kj, K0, E.
          ctleq. pose proof (lvn_put rest p') as P. unfold lvn, llen in P |- *. cbn [map length]. lia. }
  destruct ((op =? 30) || (op =? 31)) eqn:Oa.
  { destruct (isleaf nact machine (rdo machine (e_pc s + 1))) eqn:IA; [|discriminate]. injection As as As.
    destruct (isleaf_some _ _ _ IA) as (a & Ea & Ia & Hne). apply rd_rdo in Ea.
    unfold enc_act. destruct ((op =? 31) && negb (has (e_flags s) E_LAST)).
    - cbn [bind]. apply (quiet_step s c _ false es I As0).
      + subst es. left. reflexivity.
      + exists t0, t0, rest. split; [exact E|]. left. exact E.
      + reflexivity.
      + exact maxlen_pos.
      + exact F3.
      + exact FL.
      + apply Nat.le_refl.
    - rewrite Ea. cbn [bind].
      pose proof (leaf_spec a s c t0 rest oplen Ia Hne E Lo F3 FL) as K.
      destruct (call_enc C act nact maxlen a s c) as [[s2 c2]|q|]; cbn [bind good_step];
        [|right; right; exact K|exact K].
      destruct (write_out maxlen oplen s2) as [s3|q|]; cbn [bind good_step];
        [|destruct K as [K|K]; [left|right; left]; exact K|exact K].
      destruct K as (K1 & K2 & K3). split; [exact K1|].
      exists es, (false, ctl s3). split; [exact As0|]. split; [|split; [reflexivity|exact K3]].
      subst es. left. rewrite K2. reflexivity. }
  destruct (op =? 40) eqn:O40; [|discriminate].
  destruct (e_js s) as [|tgt js] eqn:Ej; [discriminate|]. injection As as As.
  unfold enc_return.
  assert (Bl : exists b, (match e_lv s with
            | _ :: (Some p, _) :: _ => Go p
            | _ :: (None, _) :: _ => Bad
            | _ => Go (e_main s)
            end) = Go b).
  { rewrite E. destruct rest as [|[[p|] pt] rest]; [eauto|eauto|].
    destruct Lo as (p & f & lf & H & _). discriminate. }
  destruct Bl as (bl & ->). cbn [bind]. rewrite Ej. cbn [bind].
  set (f1 := if llen bl =? 0 then e_flags s else Z.lor (e_flags s) E_LAST).
  assert (B1 : Z.testbit f1 2 = Z.testbit (e_flags s) 2 /\ Z.testbit f1 3 = Z.testbit (e_flags s) 3).
  { unfold f1. destruct (llen bl =? 0); [auto|]. change E_LAST with (2 ^ 1).
    rewrite !lor_bit by lia. cbn [Z.eqb Pos.eqb]. rewrite !orb_false_r. auto. }
  clearbody f1.
  apply (quiet_step s c _ false es I As0).
  + subst es. left. unfold ctl. cbn [e_pc e_js e_lv e_flags]. change E_MATCHED with (2 ^ 0).
    rewrite lor_bit by lia. rewrite orb_true_r. reflexivity.
  + exists t0, t0, rest. split; [exact E|]. left. exact E.
  + reflexivity.
  + exact maxlen_pos.
  + cbn [e_flags]. change E_MATCHED with (2 ^ 0). rewrite lor_bit by lia.
    destruct B1 as [_ B1]. rewrite B1, F3. reflexivity.
  + cbn [e_flags]. change E_MATCHED with (2 ^ 0). rewrite !lor_bit by lia.
    intros _. apply orb_true_r.
  + unfold cont. cbn [e_flags]. change E_MATCHED with (2 ^ 0). rewrite lor_bit by lia.
    destruct B1 as [B1 _]. rewrite B1. cbn [Z.eqb]. rewrite orb_false_r. lia.
Qed.

Fixpoint rank (a : astate) (l : list astate) : nat :=
  match l with
  | [] => 0
  | x :: l' => if member a l' then rank a l'
               else if astate_eqb a x then S (length l') else 0
  end.
Lemma rank_le a l : (rank a l <= length l)%nat.
Proof.
  induction l as [|x l IH]; cbn [rank length]; [lia|].
  destruct (member a l); [lia|]. destruct (astate_eqb a x); lia.
Qed.
Lemma rank_pos a l : member a l = true -> (1 <= rank a l)%nat.
Proof.
  induction l as [|x l IH]; cbn [rank]; [discriminate|]. intro M.
  destruct (member a l) eqn:E; [apply IH; reflexivity|].
  unfold member in M, E. cbn [existsb] in M. rewrite E, orb_false_r in M. rewrite M. lia.
Qed.

Lemma order_edges all l a : order_ok nact machine max_level max_stack all l = true ->
  member a l = true ->
  exists es, ASUCC a = Some es /\ forall e, In e es ->
    if fst e then member (snd e) all = true
    else member (snd e) l = true /\ (rank (snd e) l < rank a l)%nat.
Proof.
  induction l as [|x l IH]; [discriminate|]. intros O M. cbn [order_ok] in O.
  apply andb_true_iff in O. destruct O as [O1 O2].
  destruct (member a l) eqn:E.
  - destruct (IH O2 eq_refl) as (es & A & H). exists es. split; [exact A|].
    intros e He. specialize (H e He). destruct (fst e); [exact H|]. destruct H as [H1 H2].
    cbn [rank]. rewrite H1, E. split; [|exact H2].
    unfold member in *. cbn [existsb]. rewrite H1. apply orb_true_r.
  - assert (X : astate_eqb a x = true).
    { unfold member in M, E. cbn [existsb] in M. rewrite E, orb_false_r in M. exact M. }
    pose proof (astate_eqb_ok _ _ X) as Eax. rewrite <- Eax in O1. clear M.
    destruct (ASUCC a) as [es|]; [|discriminate]. exists es. split; [reflexivity|].
    rewrite forallb_forall in O1. intros e He. specialize (O1 e He).
    destruct (fst e); [exact O1|]. cbn [rank]. rewrite O1, E, X. split.
    + unfold member in *. cbn [existsb]. rewrite O1. apply orb_true_r.
    + pose proof (rank_le (snd e) l). lia.
Qed.

Variable all : list astate.
Hypothesis all_ok : order_ok nact machine max_level max_stack all all = true.

Definition left (s : est) (c : C) : nat := (mu c + cont s) * length all + rank (ctl s) all.

Definition good_end (c0 : C) (bound n : nat) (x : out (est * C + list Z * C)) : Prop :=
  match x with
  | Bad => False
  | Fin r => r = EINVAL_ \/ r = EOVERFLOW_ \/ errs r
  | Go (inr (d, c')) =>
      exists f, d = flat_map enc f /\ shown c' = flat_map leaves f /\
                forallb cons_tags f = true /\ llen d <= maxlen
  | Go (inl _) => counted -> (n < bound)%nat
  end.

Lemma run_good n : forall s c, inv s c -> member (ctl s) all = true ->
  good_end c (left s c) n (erun C act nact machine max_level maxlen max_stack n (s, c)).
Proof using act_errs act_room act_log act_mu maxlen_pos all_ok.
  induction n as [|n IH]; intros s c I M.
  - cbn [erun good_end]. intros _. unfold left. pose proof (rank_pos _ _ M). lia.
  - cbn [erun].
    destruct (order_edges all all (ctl s) all_ok M) as (es & A & Ed).
    pose proof (step_good s c I ltac:(rewrite A; discriminate)) as G.
    destruct (STEP (s, c)) as [[[s' c']|[d c']]|r|]; cbn [bind good_step] in *.
    + destruct G as (I' & es' & e & A' & He & Ec & Mu).
      rewrite A in A'. injection A' as <-. specialize (Ed e He). rewrite Ec in Ed.
      assert (M' : member (ctl s') all = true) by (destruct (fst e); [exact Ed|apply Ed]).
      specialize (IH s' c' I' M').
      assert (Dec : counted -> (left s' c' < left s c)%nat).
      { intro Ct. specialize (Mu Ct). unfold left. pose proof (rank_le (ctl s') all). pose proof (rank_pos _ _ M).
        destruct (fst e).
        - assert ((mu c' + cont s' + 1) * length all <= (mu c + cont s) * length all)%nat
            by (apply Nat.mul_le_mono_r; lia). lia.
        - destruct Ed as [_ Ed].
          assert ((mu c' + cont s') * length all <= (mu c + cont s) * length all)%nat
            by (apply Nat.mul_le_mono_r; lia). lia. }
      destruct (erun C act nact machine max_level maxlen max_stack n (s', c')) as [[x|x]|r|];
        cbn [good_end] in *; try exact IH. intro Ct. specialize (Dec Ct). specialize (IH Ct). lia.
    + destruct G as [-> G]. exact G.
    + exact G.
    + exact G.
Qed.

Hypothesis all_start : member (0, [], 0, false) all = true.
Hypothesis starts : match machine with op :: _ => leaf_op op | [] => false end = true.

Lemma start_good n c : L c = [] ->
  good_end c ((mu c + 1) * length all) n
    (erun C act nact machine max_level maxlen max_stack n (est0, c)).
Proof using act_errs act_room act_log act_mu maxlen_pos all_ok all_start starts.
  intro L0. set (s1 := mkest 0 [] [(Some [], 0)] [] 0).
  assert (I : inv s1 c).
  { constructor; cbn [e_lv e_flags e_main s1]; [|reflexivity|discriminate].
    exists 0, []. split; [reflexivity|]. exists []. unfold shown. rewrite L0.
    repeat split; try reflexivity. exact maxlen_pos. }
  assert (N : (1 <= length all)%nat) by (pose proof (rank_le (0, [], 0, false) all); pose proof (rank_pos _ _ all_start); lia).
  destruct n as [|n].
  - cbn [erun good_end]. intros _. nia.
  - pose proof (run_good (S n) s1 c I all_start) as G.
    assert (Eq : STEP (est0, c) = STEP (s1, c)).
    { destruct machine as [|op m']; [discriminate|]. unfold estep. cbn [e_pc est0 s1].
      destruct (emachlen (op :: m') <=? 0); [reflexivity|].
      change (rd (op :: m') 0) with (Go op). cbn [bind].
      destruct (rd op_lengths op) as [ol|r|]; cbn [bind]; [|reflexivity|reflexivity].
      destruct (emachlen (op :: m') <? 0 + ol); [reflexivity|]. rewrite starts.
      unfold enc_match. cbn [e_pc est0 s1]. destruct (rd (op :: m') (0 + 1)); reflexivity. }
    cbn [erun] in *. rewrite Eq. clear Eq.
    assert (B : (left s1 c <= (mu c + 1) * length all)%nat).
    { unfold left. pose proof (rank_le (ctl s1) all). change (cont s1) with 0%nat. nia. }
    destruct (r <- STEP (s1, c) ;; match r with inl sc' => _ sc' | inr d => Go (inr d) end)
      as [[x|x]|r|]; cbn [good_end] in *; try exact G. intro Ct. specialize (G Ct). lia.
Qed.

End Inv.
