(** * A static check on decoder bytecode, and what it guarantees

    [check] is an executable check on a bytecode table and a certificate.  For every table
    that passes it and every input, the decoder never reads out of bounds, hands
    its actions only slices of the input and stops after a number of trips
    linear in the input. *)
From Coq Require Import ZArith List Lia Bool.
From Verif Require Import Asn1Model.
Import ListNotations.
Open Scope Z_scope.

(** ** The check *)
Definition mem (x : Z) (l : list Z) : bool := existsb (Z.eqb x) l.

(** [cP]: the reachable pcs; [cM]: pcs that may be reached while [len] does
    not describe a slice; [cU]: the same with FLAG_MATCHED clear; [cL]: pcs
    from which the decoder must consume input or fail when it arrives with
    input left and nothing matched *)
Record cert := mkcert { cP : list Z; cM : list Z; cU : list Z; cL : list Z }.

Section Check.
Variable machine : list Z.
Variable nact : Z.
Variable ct : cert.

Definition g (i : Z) : Z := nth (Z.to_nat i) machine 0.
Definition inM (i : Z) : bool := (0 <=? i) && (i <? machlen machine).
Definition oplen (op : Z) : Z := nth (Z.to_nat op) op_lengths 0.
Definition imp (a b : bool) : bool := negb a || b.
Definition act_ok (i : Z) : bool := inM i && (0 <=? g i) && (g i <? nact).

Definition check_pc (pc : Z) : bool :=
  let op := g pc in
  let nx := pc + oplen op in
  inM pc && (0 <=? op) && (op <=? 40) && (1 <=? oplen op) &&
  (nx <=? machlen machine) &&
  if op <=? 27 then
    mem nx (cP ct) && (has op 8 || inM (pc + 1)) &&
    imp (mem pc (cM ct) && has op 16) (mem nx (cM ct)) &&
    imp ((mem pc (cM ct) || mem pc (cU ct)) && has op 1) (mem nx (cU ct)) &&
    imp (mem pc (cL ct) && has op 1) (mem nx (cL ct)) &&
    (if leaf_op op then
       imp (has op 2) (act_ok (if has op 8 then pc + 1 else pc + 2)) &&
       imp (negb (has op 8) && has (g (pc + 1)) 32)
           (negb (has op 2) && mem nx (cM ct))
     else
       jump_op op && inM (pc + 2) && (nx <? 256) &&
       mem (g (pc + 2)) (cP ct) && mem (g (pc + 2)) (cM ct))
  else if op =? 28 then
    mem nx (cP ct) && imp (mem pc (cM ct)) (mem nx (cM ct))
  else negb (mem pc (cL ct)) &&
    if op =? 29 then true
    else if end_op op then
      mem nx (cP ct) &&
      imp (has op 2)
          (inM (pc + 1) && mem (g (pc + 1)) (cP ct) && mem (g (pc + 1)) (cM ct) &&
           mem (g (pc + 1)) (cL ct) && (g (g (pc + 1)) <=? 27) &&
           negb (has (g (g (pc + 1))) 16)) &&
      imp (has op 4) (act_ok (if has op 2 then pc + 2 else pc + 1))
    else if op =? 40 then negb (mem pc (cM ct)) && negb (mem pc (cU ct))
    else negb (mem pc (cM ct)) && negb (mem pc (cU ct)) &&
         mem nx (cP ct) && act_ok (pc + 1).

Definition check : bool :=
  mem 0 (cP ct) && negb (mem 0 (cM ct)) && negb (mem 0 (cU ct)) &&
  (g 0 <=? 27) && negb (has (g 0) 16) && negb (has (g 0) 1) &&
  forallb check_pc (cP ct).

End Check.

(** ** Computing a certificate *)
Section Certificate.
Variable machine : list Z.
Let g := g machine.

(** add to [seen] all that [succ] leads to *)
Fixpoint closure (n : nat) (succ : Z -> list Z) (todo seen : list Z) : list Z :=
  match n with
  | O => seen
  | S n =>
      match todo with
      | [] => seen
      | x :: todo =>
          if mem x seen then closure n succ todo seen
          else closure n succ (succ x ++ todo) (x :: seen)
      end
  end.

Definition succ_P (pc : Z) : list Z :=
  let op := g pc in
  if (op =? 29) || (op =? 40) then []
  else (pc + oplen op) ::
       (if (op <=? 27) && has op 4 then [g (pc + 2)]
        else if end_op op && has op 2 then [g (pc + 1)] else []).

(** [2 pc] for [cM], [2 pc + 1] for [cU] *)
Definition succ_B (x : Z) : list Z :=
  let pc := x / 2 in
  let op := g pc in
  let nx := pc + oplen op in
  if op <=? 27 then
    (if (x mod 2 =? 0) && has op 16 then [2 * nx] else []) ++
    (if has op 1 then [2 * nx + 1] else [])
  else if (op =? 28) && (x mod 2 =? 0) then [2 * nx] else [].

Definition seeds_B (pc : Z) : list Z :=
  let op := g pc in
  if op <=? 27 then
    if has op 4 then [2 * g (pc + 2)]
    else if negb (has op 8) && has (g (pc + 1)) 32 then [2 * (pc + oplen op)]
    else []
  else if end_op op && has op 2 then [2 * g (pc + 1)] else [].

Definition succ_L (pc : Z) : list Z :=
  let op := g pc in
  if (op <=? 27) && has op 1 then [pc + oplen op] else [].

Definition seeds_L (pc : Z) : list Z :=
  let op := g pc in
  if end_op op && has op 2 then [g (pc + 1)] else [].

Definition find_cert : cert :=
  let p := closure 2000 succ_P [0] [] in
  let b := closure 2000 succ_B (flat_map seeds_B p) [] in
  let l := closure 2000 succ_L (flat_map seeds_L p) [] in
  mkcert p (map (fun x => x / 2) (filter Z.even b))
         (map (fun x => x / 2) (filter Z.odd b)) l.

End Certificate.

(** ** Reads and 64-bit arithmetic *)
Lemma rd_ok : forall l i, 0 <= i < Z.of_nat (length l) ->
  rd l i = Go (nth (Z.to_nat i) l 0).
Proof.
  intros l i H. unfold rd.
  replace (0 <=? i) with true by (symmetry; apply Z.leb_le; lia).
  replace (i <? Z.of_nat (length l)) with true by (symmetry; apply Z.ltb_lt; lia).
  reflexivity.
Qed.

Lemma W64_val : W64 = 18446744073709551616.
Proof. reflexivity. Qed.

Lemma usub_le : forall a b, 0 <= b <= a -> a <= 2 ^ 18 -> usub a b = a - b.
Proof.
  intros a b H1 H2. unfold usub. apply Z.mod_small. rewrite W64_val.
  change (2 ^ 18) with 262144 in H2. lia.
Qed.

Lemma uadd_le : forall a b, 0 <= a -> 0 <= b -> a + b <= 2 ^ 60 ->
  uadd a b = a + b.
Proof.
  intros a b H1 H2 H3. unfold uadd. apply Z.mod_small. rewrite W64_val.
  change (2 ^ 60) with 1152921504606846976 in H3. lia.
Qed.

Section Data.
Variable data : list Z.
Hypothesis Hbytes : forall i, 0 <= nth i data 0.
Hypothesis Hlen : Z.of_nat (length data) <= 2 ^ 18.
Let N := Z.of_nat (length data).

Lemma N_bound : 0 <= N <= 262144.
Proof using Hlen. unfold N. change (2 ^ 18) with 262144 in Hlen. lia. Qed.

Lemma rd_data : forall i, 0 <= i < N -> exists b, rd data i = Go b /\ 0 <= b.
Proof using Hbytes.
  intros i H. exists (nth (Z.to_nat i) data 0). split.
  - apply rd_ok. exact H.
  - apply Hbytes.
Qed.

Lemma len_octets_ok : forall n len dp,
  0 <= len -> 0 <= dp -> dp + Z.of_nat n <= N ->
  exists l, len_octets n data len dp = Go (l, dp + Z.of_nat n) /\ 0 <= l.
Proof using Hbytes Hlen.
  pose proof N_bound as HN.
  induction n as [|n IH]; intros len dp Hl Hd Hn.
  - exists len. split; [|exact Hl]. simpl. rewrite Z.add_0_r. reflexivity.
  - cbn [len_octets].
    destruct (rd_data dp) as (b & Hb & Hb0); [lia|].
    rewrite Hb. cbn [bind].
    rewrite uadd_le by (change (2 ^ 60) with 1152921504606846976; lia).
    destruct (IH (Z.lor ((len * 256) mod W64) b) (dp + 1)) as (l & E & L).
    + apply Z.lor_nonneg. split; [|exact Hb0].
      apply Z.mod_pos_bound. rewrite W64_val. lia.
    + lia.
    + lia.
    + exists l. split; [|exact L]. rewrite E. f_equal. f_equal. lia.
Qed.

Ltac sm := change (2 ^ 60) with 1152921504606846976;
           change (2 ^ 18) with 262144; lia.

Lemma long_tag_ok : forall n datalen dp,
  0 <= dp <= datalen -> datalen <= N -> datalen - dp < Z.of_nat n ->
  long_tag n data datalen dp = Fin EBADMSG \/
  exists dp', long_tag n data datalen dp = Go dp' /\ dp < dp' < datalen.
Proof using Hbytes Hlen.
  pose proof N_bound as HN.
  induction n as [|n IH]; intros datalen dp Hd Hl Hn; [lia|].
  cbn [long_tag]. rewrite usub_le by sm.
  destruct (datalen - dp <? 2) eqn:E; [left; reflexivity|].
  apply Z.ltb_ge in E.
  destruct (rd_data dp) as (b & Hb & Hb0); [lia|].
  rewrite Hb. cbn [bind]. rewrite uadd_le by sm.
  destruct (negb (Z.land b 128 =? 0)).
  - destruct (IH datalen (dp + 1)) as [F|(dp' & F & G)]; [lia|lia|lia| |].
    + left. exact F.
    + right. exists dp'. split; [exact F|lia].
  - right. exists (dp + 1). split; [reflexivity|lia].
Qed.

Lemma find_indef_ok : forall n datalen dp0 dp level,
  0 <= dp0 <= dp -> dp <= datalen -> datalen <= N ->
  datalen - dp < Z.of_nat n ->
  find_indef n data datalen dp0 dp level = Fin EBADMSG \/
  exists dp', find_indef n data datalen dp0 dp level = Go (dp', dp' - dp0) /\
              dp + 2 <= dp' <= datalen.
Proof using Hbytes Hlen.
  pose proof N_bound as HN.
  induction n as [|n IH]; intros datalen dp0 dp level H0 Hd Hl Hn; [lia|].
  assert (REC : forall dp1 lv, dp + 2 <= dp1 <= datalen ->
    find_indef n data datalen dp0 dp1 lv = Fin EBADMSG \/
    exists dp', find_indef n data datalen dp0 dp1 lv = Go (dp', dp' - dp0) /\
                dp + 2 <= dp' <= datalen).
  { intros dp1 lv H.
    destruct (IH datalen dp0 dp1 lv) as [F|(dp' & F & G)]; [lia|lia|lia|lia| |].
    - left. exact F.
    - right. exists dp'. split; [exact F|lia]. }
  clear IH.
  cbn [find_indef]. rewrite usub_le by sm.
  destruct (datalen - dp <? 2) eqn:E; [left; reflexivity|].
  apply Z.ltb_ge in E.
  destruct (rd_data dp) as (tag & Hb & Hb0); [lia|].
  rewrite Hb. cbn [bind]. rewrite !(uadd_le dp 1) by sm.
  destruct (tag =? 0).
  - destruct (rd_data (dp + 1)) as (b & Hb1 & _); [lia|].
    rewrite Hb1. cbn [bind]. rewrite !uadd_le by sm.
    destruct (negb (b =? 0)); [left; reflexivity|].
    destruct (level - 1 <=? 0).
    + right. exists (dp + 1 + 1). split; [|lia]. rewrite usub_le by sm. reflexivity.
    + apply REC. lia.
  - assert (LT : exists o, (if Z.land tag 31 =? 31
                 then long_tag (S n) data datalen (dp + 1) else Go (dp + 1)) = o /\
                 (o = Fin EBADMSG \/ exists d, o = Go d /\ dp + 1 <= d < datalen)).
    { eexists. split; [reflexivity|].
      destruct (Z.land tag 31 =? 31).
      - destruct (long_tag_ok (S n) datalen (dp + 1)) as [F|(d & F & G)]; [lia|lia|lia| |].
        + left. exact F.
        + right. exists d. split; [exact F|lia].
      - right. exists (dp + 1). split; [reflexivity|lia]. }
    destruct LT as (o & EO & LT). rewrite EO. clear EO.
    destruct LT as [->|(d & -> & Hd1)]; [left; reflexivity|]. cbn [bind].
    destruct (rd_data d) as (len & Hb1 & Hl0); [lia|].
    rewrite Hb1. cbn [bind]. rewrite !(uadd_le d 1) by sm.
    destruct (len <=? 127) eqn:E1.
    + rewrite !usub_le by sm.
      destruct (len >? datalen - (d + 1)) eqn:E2; [left; reflexivity|].
      rewrite Z.gtb_ltb in E2. apply Z.ltb_ge in E2.
      rewrite uadd_le by sm. apply REC. lia.
    + destruct (len =? 128) eqn:E3.
      * destruct (Z.land tag 32 =? 0); [left; reflexivity|]. apply REC. lia.
      * apply Z.leb_gt in E1. apply Z.eqb_neq in E3.
        destruct (len - 128 >? 7); [left; reflexivity|].
        rewrite !usub_le by sm.
        destruct (len - 128 >? datalen - (d + 1)) eqn:E4; [left; reflexivity|].
        rewrite Z.gtb_ltb in E4. apply Z.ltb_ge in E4.
        destruct (len_octets_ok (Z.to_nat (len - 128)) 0 (d + 1)) as (l & EL & L0);
          [lia|lia|lia|].
        rewrite EL. cbn [bind]. rewrite Z2Nat.id by lia.
        rewrite !usub_le by sm.
        destruct (l >? datalen - (d + 1 + (len - 128))) eqn:E5; [left; reflexivity|].
        rewrite Z.gtb_ltb in E5. apply Z.ltb_ge in E5.
        rewrite uadd_le by sm. apply REC. lia.
Qed.

End Data.

(** ** Flag bits *)
Lemma has_testbit : forall x k, 0 <= k -> has x (2 ^ k) = Z.testbit x k.
Proof.
  intros x k Hk. unfold has. destruct (Z.testbit x k) eqn:E.
  - apply negb_true_iff, Z.eqb_neq. intro F.
    assert (G : Z.testbit (Z.land x (2 ^ k)) k = true).
    { rewrite Z.land_spec, E, Z.pow2_bits_true by lia. reflexivity. }
    rewrite F, Z.bits_0 in G. discriminate.
  - apply negb_false_iff, Z.eqb_eq. apply Z.bits_inj'. intros n Hn.
    rewrite Z.bits_0, Z.land_spec.
    destruct (Z.eq_dec n k) as [->|D]; [rewrite E; reflexivity|].
    rewrite Z.pow2_bits_false by lia. apply andb_false_r.
Qed.

Lemma has2 : forall x, has x 2 = Z.testbit x 1.
Proof. intro x. exact (has_testbit x 1 ltac:(lia)). Qed.
Lemma has1 : forall x, has x 1 = Z.testbit x 0.
Proof. intro x. exact (has_testbit x 0 ltac:(lia)). Qed.
Lemma has32 : forall x, has x 32 = Z.testbit x 5.
Proof. intro x. exact (has_testbit x 5 ltac:(lia)). Qed.

Lemma fl_cons_matched : forall o, has (Z.land o F_CONS) F_MATCHED = false.
Proof.
  intro o. unfold F_MATCHED, F_CONS. rewrite has2, Z.land_spec. apply andb_false_r.
Qed.

Lemma fl_cons : forall o, has (Z.lor (Z.land o F_CONS) F_MATCHED) F_CONS = has o 32.
Proof.
  intro o. unfold F_MATCHED, F_CONS. rewrite !has32, Z.lor_spec, Z.land_spec.
  change (Z.testbit 32 5) with true. change (Z.testbit 2 5) with false.
  rewrite andb_true_r, orb_false_r. reflexivity.
Qed.

Lemma fl_cons_i : forall o,
  has (Z.lor (Z.lor (Z.land o F_CONS) F_MATCHED) F_INDEF) F_CONS = has o 32.
Proof.
  intro o. rewrite <- (fl_cons o). unfold F_INDEF, F_CONS. rewrite !has32.
  rewrite (Z.lor_spec _ 1). change (Z.testbit 1 5) with false.
  apply orb_false_r.
Qed.

Lemma fl_indef : forall o, has (Z.lor (Z.land o F_CONS) F_MATCHED) F_INDEF = false.
Proof.
  intro o. unfold F_MATCHED, F_CONS, F_INDEF. rewrite !has1, Z.lor_spec, Z.land_spec.
  change (Z.testbit 32 0) with false. change (Z.testbit 2 0) with false.
  rewrite andb_false_r. reflexivity.
Qed.

Lemma fl_indef_i : forall f, has (Z.lor f F_INDEF) F_INDEF = true.
Proof.
  intro f. unfold F_INDEF. rewrite has1, Z.lor_spec. apply orb_true_r.
Qed.

Lemma imp_true : forall a b, imp a b = true -> a = true -> b = true.
Proof. unfold imp. intros [|] [|]; simpl; congruence. Qed.

(** ** One trip *)
Section Step.
Variable C : Type.
Variable act : Z -> Z -> Z -> Z -> Z -> C -> Z * C.
Variable nact : Z.
Variable machine data : list Z.
Variable ct : cert.
Hypothesis Hbytes : forall i, 0 <= nth i data 0.
Hypothesis Hlen : Z.of_nat (length data) <= 2 ^ 18.
Hypothesis Hck : check machine nact ct = true.
Let N := Z.of_nat (length data).
Let M := machlen machine.
Let gm := g machine.

Ltac sm := change (2 ^ 60) with 1152921504606846976;
           change (2 ^ 18) with 262144; unfold N in *; clear Hck; lia.

Lemma NB : 0 <= N <= 262144.
Proof. unfold N. change (2 ^ 18) with 262144 in Hlen. lia. Qed.

Lemma rd_m : forall i, inM machine i = true -> rd machine i = Go (gm i).
Proof.
  intros i H. unfold inM, machlen in H. apply andb_prop in H. destruct H as [A B].
  apply Z.leb_le in A. apply Z.ltb_lt in B. apply rd_ok. lia.
Qed.

Lemma rd_d : forall i, 0 <= i < N -> exists b, rd data i = Go b /\ 0 <= b.
Proof. exact (rd_data data Hbytes). Qed.

(** what [do_match] does *)
Definition isany (op : Z) : bool := has op 8.
Definition iscons (pc op : Z) : bool := negb (has op 8) && has (gm (pc + 1)) 32.

Definition match_post (op ol : Z) (s : st) (r : out (st + st)) : Prop :=
  match r with
  | Bad => False
  | Fin r => r < 0
  | Go (inl s') =>
      s_pc s' = s_pc s + ol /\ s_dp s' = s_dp s /\ s_tdp s' = s_tdp s /\
      s_len s' = s_len s /\ s_datalen s' = s_datalen s /\ s_cons s' = s_cons s /\
      s_jump s' = s_jump s /\
      ((s_hdr s' = s_hdr s /\
        ((has op 16 = true /\ has (s_flags s) F_MATCHED = true) \/
         (has op 1 = true /\ s_dp s = s_datalen s))) \/
       (s_hdr s' = 2 /\ has op 1 = true /\ s_dp s < s_datalen s /\
        has (s_flags s') F_MATCHED = false))
  | Go (inr s') =>
      s_pc s' = s_pc s /\ s_tdp s' = s_dp s' /\ s_jump s' = s_jump s /\
      2 <= s_hdr s' /\ s_dp s + s_hdr s' <= s_dp s' /\ s_dp s' <= s_datalen s /\
      has (s_flags s') F_CONS = iscons (s_pc s) op /\
      (has (s_flags s') F_INDEF = false -> 0 <= s_len s' <= s_datalen s - s_dp s') /\
      (has (s_flags s') F_INDEF = true -> s_dp s' + 2 <= s_datalen s) /\
      (iscons (s_pc s) op = false ->
         s_datalen s' = s_datalen s /\ s_cons s' = s_cons s) /\
      (iscons (s_pc s) op = true -> has (s_flags s') F_INDEF = true ->
         s_datalen s' = s_datalen s /\
         s_cons s' = (s_dp s', 0, s_hdr s') :: s_cons s) /\
      (iscons (s_pc s) op = true -> has (s_flags s') F_INDEF = false ->
         s_datalen s' = s_dp s' + s_len s' /\
         s_cons s' = (s_dp s', s_datalen s, s_hdr s') :: s_cons s)
  end.

(** the part after a match: [fl] the flags *)
Lemma match_tail : forall op ol pc dp tdp len datalen flags0 tag hdr0 cs jump fl tg,
  0 <= dp -> dp + 2 <= datalen -> datalen <= N ->
  has (Z.lor fl F_MATCHED) F_CONS = iscons pc op ->
  has (Z.lor (Z.lor fl F_MATCHED) F_INDEF) F_CONS = iscons pc op ->
  has (Z.lor fl F_MATCHED) F_INDEF = false ->
  match_post op ol (mkst pc dp tdp len datalen flags0 tag hdr0 cs jump)
    (let flags := Z.lor fl F_MATCHED in
     let dp1 := uadd dp 1 in
     len0 <- rd data dp1 ;;
     let dp2 := uadd dp1 1 in
     r <- (if len0 >? 127 then
             if len0 =? 128 then
               guard negb (has tg 32) ;;
               guard (2 >? usub datalen dp2) ;;
               Go (Z.lor flags F_INDEF, 2, len0, dp2)
             else
               let n := len0 - 128 in
               guard (n >? 3) ;;
               guard (n >? usub datalen dp2) ;;
               q <- len_octets (Z.to_nat n) data 0 dp2 ;;
               let '(len, dp3) := q in
               guard (len >? usub datalen dp3) ;;
               Go (flags, 2 + n, len, dp3)
           else
             guard (len0 >? usub datalen dp2) ;;
             Go (flags, 2, len0, dp2)) ;;
     let '(flags, hdr, len, dp) := r in
     if has flags F_CONS then
       guard (10 <=? Z.of_nat (length cs)) ;;
       if negb (has flags F_INDEF) then
         Go (inr (mkst pc dp dp len (uadd dp len) flags tg hdr
                       ((dp, datalen, hdr) :: cs) jump))
       else
         Go (inr (mkst pc dp dp len datalen flags tg hdr
                       ((dp, 0, hdr) :: cs) jump))
     else
       Go (inr (mkst pc dp dp len datalen flags tg hdr cs jump))).
Proof.
  intros op ol pc dp tdp len datalen flags0 tag hdr0 cs jump fl tg H0 H2 HN Hc Hci Hi.
  pose proof NB as NB. cbv zeta. rewrite !(uadd_le dp 1) by sm.
  destruct (rd_d (dp + 1)) as (len0 & Hb & Hl0); [lia|].
  rewrite Hb. cbn [bind]. rewrite !(uadd_le (dp + 1) 1) by sm.
  rewrite !(usub_le datalen (dp + 1 + 1)) by sm.
  assert (EB : forall X : out (st + st), X = Fin EBADMSG ->
    match_post op ol (mkst pc dp tdp len datalen flags0 tag hdr0 cs jump) X).
  { intros X ->. cbn. unfold EBADMSG. lia. }
  destruct (len0 >? 127) eqn:E1.
  - rewrite Z.gtb_ltb in E1. apply Z.ltb_lt in E1.
    destruct (len0 =? 128) eqn:E2.
    + destruct (negb (has tg 32)); [apply EB; reflexivity|].
      destruct (2 >? datalen - (dp + 1 + 1)) eqn:E3; [apply EB; reflexivity|].
      rewrite Z.gtb_ltb in E3. apply Z.ltb_ge in E3. cbn [bind].
      rewrite Hci. rewrite fl_indef_i. cbn [negb].
      destruct (iscons pc op) eqn:EC.
      * destruct (10 <=? Z.of_nat (length cs)); [apply EB; reflexivity|].
        cbn [match_post s_pc s_dp s_tdp s_len s_datalen s_flags s_hdr s_cons s_jump].
        rewrite EC, Hci, fl_indef_i.
        repeat split; try lia; try congruence.
      * cbn [match_post s_pc s_dp s_tdp s_len s_datalen s_flags s_hdr s_cons s_jump].
        rewrite EC, Hci, fl_indef_i.
        repeat split; try lia; try congruence.
    + apply Z.eqb_neq in E2.
      destruct (len0 - 128 >? 3) eqn:E3; [apply EB; reflexivity|].
      destruct (len0 - 128 >? datalen - (dp + 1 + 1)) eqn:E4; [apply EB; reflexivity|].
      rewrite Z.gtb_ltb in E4. apply Z.ltb_ge in E4.
      destruct (len_octets_ok data Hbytes Hlen (Z.to_nat (len0 - 128)) 0 (dp + 1 + 1))
        as (l & EL & L0); [lia|lia|sm|].
      rewrite EL. cbn [bind]. rewrite Z2Nat.id by lia.
      rewrite !usub_le by sm.
      destruct (l >? datalen - (dp + 1 + 1 + (len0 - 128))) eqn:E5; [apply EB; reflexivity|].
      rewrite Z.gtb_ltb in E5. apply Z.ltb_ge in E5. cbn [bind].
      rewrite Hc, Hi. cbn [negb].
      destruct (iscons pc op) eqn:EC.
      * destruct (10 <=? Z.of_nat (length cs)); [apply EB; reflexivity|].
        rewrite uadd_le by sm.
        cbn [match_post s_pc s_dp s_tdp s_len s_datalen s_flags s_hdr s_cons s_jump].
        rewrite EC, Hc, Hi.
        repeat split; try lia; try congruence.
      * cbn [match_post s_pc s_dp s_tdp s_len s_datalen s_flags s_hdr s_cons s_jump].
        rewrite EC, Hc, Hi.
        repeat split; try lia; try congruence.
  - rewrite Z.gtb_ltb in E1. apply Z.ltb_ge in E1.
    destruct (len0 >? datalen - (dp + 1 + 1)) eqn:E3; [apply EB; reflexivity|].
    rewrite Z.gtb_ltb in E3. apply Z.ltb_ge in E3. cbn [bind].
    rewrite Hc, Hi. cbn [negb].
    destruct (iscons pc op) eqn:EC.
    + destruct (10 <=? Z.of_nat (length cs)); [apply EB; reflexivity|].
      rewrite uadd_le by sm.
      cbn [match_post s_pc s_dp s_tdp s_len s_datalen s_flags s_hdr s_cons s_jump].
      rewrite EC, Hc, Hi.
      repeat split; try lia; try congruence.
    + cbn [match_post s_pc s_dp s_tdp s_len s_datalen s_flags s_hdr s_cons s_jump].
      rewrite EC, Hc, Hi.
      repeat split; try lia; try congruence.
Qed.

Lemma do_match_ok : forall op ol s,
  0 <= s_dp s <= s_datalen s -> s_datalen s <= N ->
  has op 8 = true \/ inM machine (s_pc s + 1) = true ->
  match_post op ol s (do_match machine data op ol s).
Proof.
  intros op ol [pc dp tdp len datalen flags tag hdr cs jump] Hd Hl Hm.
  cbn [s_pc s_dp s_datalen] in Hd, Hl, Hm.
  pose proof NB as NB.
  unfold do_match.
  destruct ((has op 16 && has flags F_MATCHED) || (has op 1 && (dp =? datalen))) eqn:E.
  - cbn [match_post s_pc s_dp s_tdp s_len s_datalen s_flags s_hdr s_cons s_jump].
    repeat (split; [reflexivity|]). left. split; [reflexivity|].
    apply orb_prop in E. destruct E as [E|E]; apply andb_prop in E; destruct E as [A B].
    + left. split; assumption.
    + right. split; [assumption|]. apply Z.eqb_eq. assumption.
  - rewrite !usub_le by sm.
    destruct (datalen - dp <? 2) eqn:E2.
    { cbn. unfold EBADMSG. lia. }
    apply Z.ltb_ge in E2.
    destruct (rd_d dp) as (tg & Hb & Hb0); [lia|].
    rewrite Hb. cbn [bind].
    destruct (Z.land tg 31 =? 31).
    { cbn. unfold EBADMSG. lia. }
    destruct (has op 8) eqn:E8.
    + cbn [bind]. apply match_tail; try lia; try (unfold iscons; rewrite E8; reflexivity); reflexivity.
    + destruct Hm as [Hm|Hm]; [discriminate|].
      rewrite !rd_m by exact Hm. cbn [bind].
      destruct (negb (Z.land (Z.lxor (gm (pc + 1)) tg) (255 - Z.land (gm (pc + 1)) 32) =? 0)).
      * destruct (has op 1) eqn:E1.
        -- cbn [bind]. cbn [match_post s_pc s_dp s_tdp s_len s_datalen s_flags s_hdr s_cons s_jump].
           repeat (split; [reflexivity|]). right. split; [reflexivity|].
           split; [exact E1|]. split; [lia|]. apply fl_cons_matched.
        -- cbn. unfold EBADMSG. lia.
      * cbn [bind]. apply match_tail; try lia.
        -- unfold iscons. rewrite E8. apply fl_cons.
        -- unfold iscons. rewrite E8. apply fl_cons_i.
        -- apply fl_indef.
Qed.

(** *** The invariant *)
Fixpoint stack_ok (datalen dp : Z) (cs : list (Z * Z * Z)) : Prop :=
  match cs with
  | [] => True
  | (cdp, cdl, ch) :: r =>
      2 <= ch <= cdp /\ cdp <= dp /\
      ((cdl = 0 /\ stack_ok datalen cdp r) \/
       (0 < cdl /\ datalen <= cdl <= N /\ stack_ok cdl cdp r))
  end.

Lemma stack_mono : forall cs datalen dp dp',
  dp <= dp' -> stack_ok datalen dp cs -> stack_ok datalen dp' cs.
Proof.
  intros [|((cdp & cdl) & ch) r] datalen dp dp' H; simpl; [trivial|].
  intros (A & B & D). split; [exact A|]. split; [clear Hck; lia|exact D].
Qed.

Definition good (s : st) : Prop := 0 <= s_len s /\ s_tdp s + s_len s <= N.
Definition bad (s : st) : Prop :=
  s_dp s < s_datalen s /\
  (mem (s_pc s) (cM ct) = true \/
   (mem (s_pc s) (cU ct) = true /\ has (s_flags s) F_MATCHED = false)).

Record Inv (s : st) : Prop := mkInv {
  i_pc : mem (s_pc s) (cP ct) = true;
  i_dp : 0 <= s_dp s <= s_datalen s;
  i_dl : s_datalen s <= N;
  i_cs : stack_ok (s_datalen s) (s_dp s) (s_cons s);
  i_js : Forall (fun p => mem p (cP ct) = true) (s_jump s);
  i_hd : s_pc s = 0 \/ 2 <= s_hdr s <= s_tdp s;
  i_gb : good s \/ bad s }.

(** *** The measure *)
Definition live (s : st) : bool :=
  mem (s_pc s) (cL ct) && (s_dp s <? s_datalen s) &&
  (negb (has (s_flags s) F_MATCHED) ||
   ((gm (s_pc s) <=? 27) && negb (has (gm (s_pc s)) 16))).

Definition K : Z := 2 * M + 2.
Definition J : Z := M + 1.
Definition phi (s : st) : Z :=
  (N - s_dp s) * K + Z.of_nat (length (s_jump s)) * J + (M - s_pc s) +
  (if live s then 0 else K).

(** what a trip has to do *)
Definition post (s : st) (o : out (st * C)) : Prop :=
  match o with
  | Bad => False
  | Fin r => r <= 0
  | Go (s', _) => Inv s' /\ phi s' < phi s
  end.

Lemma M_pos : 0 <= M.
Proof. unfold M, machlen. clear Hck. lia. Qed.

Lemma ck_pc : forall pc, mem pc (cP ct) = true -> check_pc machine nact ct pc = true.
Proof.
  intros pc H. unfold check in Hck. apply andb_prop in Hck. destruct Hck as [_ F].
  unfold mem in H. apply existsb_exists in H. destruct H as (x & I & E).
  apply Z.eqb_eq in E. subst x. rewrite forallb_forall in F. apply F. exact I.
Qed.

Lemma pc_range : forall pc, mem pc (cP ct) = true -> 0 <= pc < M.
Proof.
  intros pc H. apply ck_pc in H. unfold check_pc in H. cbv zeta in H.
  do 5 (apply andb_prop in H; destruct H as [H _]).
  unfold inM in H. apply andb_prop in H. destruct H as [A B].
  apply Z.leb_le in A. apply Z.ltb_lt in B. unfold M. clear Hck. lia.
Qed.

Lemma live_if : forall s, 0 <= (if live s then 0 else K) <= K.
Proof. intro s. pose proof M_pos. unfold K. destruct (live s); clear Hck; lia. Qed.

(** consuming two bytes pays for everything else *)
Lemma phi_consume : forall s s',
  0 <= s_pc s < M -> 0 <= s_pc s' < M ->
  s_dp s + 2 <= s_dp s' ->
  Z.of_nat (length (s_jump s')) <= Z.of_nat (length (s_jump s)) + 1 ->
  phi s' < phi s.
Proof.
  intros s s' H1 H2 H3 H4. unfold phi.
  pose proof (live_if s). pose proof (live_if s'). pose proof M_pos.
  unfold K, J in *. clear Hck. nia.
Qed.

(** advancing from a place which is not live *)
Lemma phi_advance : forall s s',
  live s = false -> s_pc s < s_pc s' -> s_dp s <= s_dp s' ->
  length (s_jump s') = length (s_jump s) ->
  phi s' < phi s.
Proof.
  intros s s' H1 H2 H3 H4. unfold phi. rewrite H1, H4.
  pose proof (live_if s'). pose proof M_pos. unfold K in *. clear Hck. nia.
Qed.

Lemma phi_live : forall s s',
  live s' = true -> s_pc s < s_pc s' -> s_dp s <= s_dp s' ->
  length (s_jump s') = length (s_jump s) ->
  phi s' < phi s.
Proof.
  intros s s' H1 H2 H3 H4. unfold phi. rewrite H1, H4.
  pose proof (live_if s). pose proof M_pos. unfold K in *. clear Hck. nia.
Qed.

Lemma phi_loop : forall s s',
  live s = false -> live s' = true ->
  0 <= s_pc s < M -> 0 <= s_pc s' < M -> s_dp s = s_dp s' ->
  length (s_jump s') = length (s_jump s) ->
  phi s' < phi s.
Proof.
  intros s s' H0 H1 H2 H3 H4 H5. unfold phi. rewrite H0, H1, H5, H4.
  pose proof M_pos. unfold K in *. clear Hck. lia.
Qed.

Lemma phi_return : forall s s',
  live s = false -> 0 <= s_pc s < M -> 0 <= s_pc s' < M -> s_dp s = s_dp s' ->
  S (length (s_jump s')) = length (s_jump s) ->
  phi s' < phi s.
Proof.
  intros s s' H0 H2 H3 H4 H5. unfold phi. rewrite H0, H4, <- H5.
  pose proof (live_if s'). pose proof M_pos. unfold K, J in *.
  rewrite Nat2Z.inj_succ. clear Hck. lia.
Qed.

(** an action called on a slice *)
Lemma call_ok : forall i hdr tag off len c,
  act_ok machine nact i = true -> 2 <= hdr <= off -> 0 <= len -> off + len <= N ->
  (exists r, call C act nact data (gm i) hdr tag off len c = Fin r /\ r < 0) \/
  (exists c', call C act nact data (gm i) hdr tag off len c = Go c').
Proof.
  intros i hdr tag off len c Ha Hh Hl Ho. unfold call.
  unfold act_ok in Ha. apply andb_prop in Ha. destruct Ha as [Ha A2].
  apply andb_prop in Ha. destruct Ha as [_ A1].
  fold gm in A1, A2. rewrite A1, A2.
  replace (2 <=? hdr) with true by (symmetry; apply Z.leb_le; clear Hck; lia).
  replace (hdr <=? off) with true by (symmetry; apply Z.leb_le; clear Hck; lia).
  replace (0 <=? len) with true by (symmetry; apply Z.leb_le; clear Hck; lia).
  replace (off + len <=? Z.of_nat (length data)) with true
    by (symmetry; apply Z.leb_le; unfold N in Ho; clear Hck; lia).
  cbn [andb]. destruct (act (gm i) hdr tag off len c) as [r c'].
  destruct (r <? 0) eqn:E.
  - left. exists r. split; [reflexivity|]. apply Z.ltb_lt. exact E.
  - right. exists c'. reflexivity.
Qed.

Lemma rd_act : forall i, act_ok machine nact i = true -> rd machine i = Go (gm i).
Proof.
  intros i H. apply rd_m. unfold act_ok in H.
  apply andb_prop in H. destruct H as [H _].
  apply andb_prop in H. destruct H as [H _]. exact H.
Qed.

Ltac ands H := repeat (match type of H with
  | (_ && _) = true => let H1 := fresh H in apply andb_true_iff in H; destruct H as [H H1]
  end).

Lemma ck_base : forall pc, mem pc (cP ct) = true ->
  0 <= gm pc <= 40 /\ 1 <= oplen (gm pc) /\ pc + oplen (gm pc) <= M /\
  rd machine pc = Go (gm pc) /\ rd op_lengths (gm pc) = Go (oplen (gm pc)).
Proof.
  intros pc H. pose proof (pc_range pc H) as R.
  apply ck_pc in H. unfold check_pc in H. cbv zeta in H.
  apply andb_true_iff in H. destruct H as [H _].
  fold gm in H. fold M in H. ands H.
  apply Z.leb_le in H0, H1, H2, H3.
  split; [clear Hck; lia|]. split; [exact H1|]. split; [exact H0|].
  split; [apply rd_m; exact H|].
  apply rd_ok. cbn [length op_lengths]. clear Hck. lia.
Qed.

Lemma ck_match : forall pc, mem pc (cP ct) = true -> gm pc <= 27 ->
  let op := gm pc in let nx := pc + oplen op in
  mem nx (cP ct) = true /\
  (has op 8 = true \/ inM machine (pc + 1) = true) /\
  (mem pc (cM ct) = true -> has op 16 = true -> mem nx (cM ct) = true) /\
  (mem pc (cM ct) = true \/ mem pc (cU ct) = true -> has op 1 = true ->
     mem nx (cU ct) = true) /\
  (mem pc (cL ct) = true -> has op 1 = true -> mem nx (cL ct) = true) /\
  ((leaf_op op = true /\
    (has op 2 = true -> act_ok machine nact (if has op 8 then pc + 1 else pc + 2) = true /\
                        iscons pc op = false) /\
    (iscons pc op = true -> mem nx (cM ct) = true)) \/
   (leaf_op op = false /\ jump_op op = true /\ inM machine (pc + 2) = true /\
    nx < 256 /\ mem (gm (pc + 2)) (cP ct) = true /\ mem (gm (pc + 2)) (cM ct) = true)).
Proof.
  intros pc H Hop op nx. apply ck_pc in H. unfold check_pc in H. cbv zeta in H.
  apply andb_true_iff in H. destruct H as [_ H]. fold gm in H. fold op in H.
  replace (op <=? 27) with true in H by (symmetry; apply Z.leb_le; exact Hop).
  fold nx in H.
  apply andb_true_iff in H. destruct H as [H HL].
  apply andb_true_iff in H. destruct H as [H H5].
  apply andb_true_iff in H. destruct H as [H H4].
  apply andb_true_iff in H. destruct H as [H H3].
  apply andb_true_iff in H. destruct H as [H1 H2].
  split; [exact H1|].
  split; [apply orb_prop; exact H2|].
  split. { intros A B. apply (imp_true _ _ H3). rewrite A, B. reflexivity. }
  split. { intros A B. apply (imp_true _ _ H4). destruct A as [A|A]; rewrite A, B;
           [reflexivity|]. destruct (mem pc (cM ct)); reflexivity. }
  split. { intros A B. apply (imp_true _ _ H5). rewrite A, B. reflexivity. }
  destruct (leaf_op op).
  - left. split; [reflexivity|].
    apply andb_true_iff in HL. destruct HL as [L1 L2].
    split.
    + intro A. split; [apply (imp_true _ _ L1 A)|].
      destruct (iscons pc op) eqn:E; [|reflexivity].
      pose proof (imp_true _ _ L2 E) as F.
      rewrite A in F. cbn in F. discriminate.
    + intro E. pose proof (imp_true _ _ L2 E) as F.
      apply andb_true_iff in F. apply F.
  - right. split; [reflexivity|].
    apply andb_true_iff in HL. destruct HL as [HL L5].
    apply andb_true_iff in HL. destruct HL as [HL L4].
    apply andb_true_iff in HL. destruct HL as [HL L3].
    apply andb_true_iff in HL. destruct HL as [L1 L2].
    apply Z.ltb_lt in L3. repeat split; assumption.
Qed.

(** a MATCH operation that was skipped *)
Lemma skip_post : forall s s' c,
  Inv s -> gm (s_pc s) <= 27 ->
  (s_pc s = 0 -> has (gm 0) 16 = false /\ has (gm 0) 1 = false) ->
  match_post (gm (s_pc s)) (oplen (gm (s_pc s))) s (Go (inl s')) ->
  post s (Go (s', c)).
Proof.
  intros s s' c I Hop H0 P.
  destruct I as [Ipc Idp Idl Ics Ijs Ihd Igb].
  destruct (ck_match _ Ipc Hop) as (Cnx & _ & C16 & C1 & CL & _).
  pose proof (ck_base _ Ipc) as (_ & B1 & _ & _ & _).
  cbn [match_post] in P.
  destruct P as (Ppc & Pdp & Ptdp & Plen & Pdl & Pcs & Pjs & Pc).
  assert (PC0 : s_pc s <> 0).
  { intro E. destruct (H0 E) as [Z1 Z2]. rewrite E in Pc.
    destruct Pc as [(_ & [(A & _)|(A & _)])|(_ & A & _)]; congruence. }
  split.
  - constructor.
    + rewrite Ppc. exact Cnx.
    + rewrite Pdp, Pdl. exact Idp.
    + rewrite Pdl. exact Idl.
    + rewrite Pdp, Pdl, Pcs. exact Ics.
    + rewrite Pjs. exact Ijs.
    + right. destruct Ihd as [E|E]; [contradiction|].
      rewrite Ptdp. destruct Pc as [(Ph & _)|(Ph & _)]; rewrite Ph; clear Hck; lia.
    + destruct Igb as [G|(B & D)].
      * left. unfold good in *. rewrite Plen, Ptdp. exact G.
      * right. unfold bad. rewrite Pdp, Pdl. split; [exact B|]. rewrite Ppc.
        destruct Pc as [(_ & [(A & F)|(_ & F)])|(_ & A & _ & F)].
        -- destruct D as [D|(_ & D)]; [|congruence]. left. apply C16; assumption.
        -- clear Hck. lia.
        -- right. split; [|exact F]. apply C1; [|exact A].
           destruct D as [D|(D & _)]; [left|right]; exact D.
  - destruct (live s) eqn:EL.
    + (* cannot be the first kind of skip *)
      unfold live in EL. apply andb_true_iff in EL. destruct EL as [EL E3].
      apply andb_true_iff in EL. destruct EL as [E1 E2]. apply Z.ltb_lt in E2.
      assert (X : has (gm (s_pc s)) 1 = true /\ has (s_flags s') F_MATCHED = false).
      { destruct Pc as [(_ & [(A & F)|(_ & F)])|(_ & A & _ & F)].
        - rewrite F, A in E3. cbn in E3. rewrite andb_false_r in E3. discriminate.
        - clear Hck. lia.
        - split; assumption. }
      destruct X as [X1 X2].
      apply phi_live.
      * unfold live. rewrite Ppc, Pdp, Pdl, X2. rewrite (CL E1 X1).
        apply Z.ltb_lt in E2. rewrite E2. reflexivity.
      * rewrite Ppc. clear Hck. lia.
      * rewrite Pdp. clear Hck. lia.
      * rewrite Pjs. reflexivity.
    + apply phi_advance; [exact EL| | |].
      * rewrite Ppc. clear Hck. lia.
      * rewrite Pdp. clear Hck. lia.
      * rewrite Pjs. reflexivity.
Qed.

Lemma leaf_post : forall s s1 c,
  Inv s -> gm (s_pc s) <= 27 -> leaf_op (gm (s_pc s)) = true ->
  match_post (gm (s_pc s)) (oplen (gm (s_pc s))) s (Go (inr s1)) ->
  post s (do_leaf C act nact machine data (gm (s_pc s)) (oplen (gm (s_pc s))) s1 c).
Proof.
  intros s [pc1 dp1 tdp1 len1 dl1 fl1 tag1 hdr1 cs1 js1] c I Hop Hleaf P.
  pose proof NB as NB.
  destruct I as [Ipc Idp Idl Ics Ijs Ihd Igb].
  destruct (ck_match _ Ipc Hop) as (Cnx & _ & _ & _ & _ & CC).
  destruct CC as [(_ & Cact & Ccons)|(F & _)]; [|congruence].
  pose proof (ck_base _ Ipc) as (_ & B1 & _ & _ & _).
  pose proof (pc_range _ Ipc) as R0.
  pose proof (pc_range _ Cnx) as R1.
  cbn [match_post s_pc s_dp s_tdp s_len s_datalen s_flags s_hdr s_cons s_jump] in P.
  destruct P as (Ppc & Ptdp & Pjs & Ph2 & Pdp & Pdpl & Pfc & Pni & Pi & Pnc & Pci & Pcd).
  unfold do_leaf. rewrite Pfc.
  remember (gm (s_pc s)) as op eqn:Eop.
  (* the length of a leaf *)
  assert (LEN : exists o,
    (if negb (iscons (s_pc s) op) && has fl1 F_INDEF
     then r <- find_indef (S (length data)) data dl1 dp1 dp1 1 ;; Go (snd r)
     else Go len1) = o /\
    (o = Fin EBADMSG \/
     exists l, o = Go l /\
      (iscons (s_pc s) op = false -> 0 <= l <= s_datalen s - dp1) /\
      (iscons (s_pc s) op = true -> l = len1))).
  { eexists. split; [reflexivity|].
    destruct (iscons (s_pc s) op) eqn:EC; cbn [negb andb].
    - right. exists len1. split; [reflexivity|]. split; [congruence|reflexivity].
    - destruct (Pnc eq_refl) as [Ed _].
      destruct (has fl1 F_INDEF) eqn:EI.
      + specialize (Pi eq_refl).
        destruct (find_indef_ok data Hbytes Hlen (S (length data)) dl1 dp1 dp1 1)
          as [F|(d & F & G)]; [clear Hck; lia|clear Hck; lia|clear Hck; unfold N in *; lia
                                |rewrite Nat2Z.inj_succ; unfold N in *; clear Hck; lia| |].
        * left. rewrite F. reflexivity.
        * right. rewrite F. exists (d - dp1). cbn [bind snd].
          split; [reflexivity|]. split; [clear Hck; lia|discriminate].
      + right. exists len1. split; [reflexivity|]. split; [|discriminate].
        intros _. apply Pni. reflexivity. }
  destruct LEN as (o & EO & LEN). rewrite EO. clear EO.
  destruct LEN as [->|(l & -> & Ll & Lc)]; [cbn; unfold EBADMSG; clear; lia|].
  cbn [bind].
  (* the action *)
  assert (ACT : exists o,
    (if has op 2 then i <- rd machine (if has op 8 then pc1 + 1 else pc1 + 2) ;;
                      call C act nact data i hdr1 tag1 dp1 l c else Go c) = o /\
    ((exists r, o = Fin r /\ r < 0) \/ exists c', o = Go c')).
  { eexists. split; [reflexivity|]. destruct (has op 2) eqn:E2.
    - destruct (Cact eq_refl) as [A NC]. rewrite Ppc.
      rewrite (rd_act _ A). cbn [bind].
      specialize (Ll NC).
      apply call_ok; [exact A|clear Hck; lia|clear Hck; lia|clear Hck; lia].
    - right. exists c. reflexivity. }
  destruct ACT as (o & EO & ACT). rewrite EO. clear EO.
  destruct ACT as [(r & -> & Hr)|(c' & ->)]; [cbn; clear Hck; lia|].
  cbn [bind post].
  assert (U : iscons (s_pc s) op = false -> uadd dp1 l = dp1 + l).
  { intro F. specialize (Ll F). apply uadd_le; sm. }
  split.
  - constructor;
      cbn [s_pc s_dp s_tdp s_len s_datalen s_flags s_hdr s_cons s_jump].
    + rewrite Ppc. exact Cnx.
    + destruct (iscons (s_pc s) op) eqn:EC.
      * destruct (has fl1 F_INDEF) eqn:EI.
        -- destruct (Pci eq_refl eq_refl) as [-> _]. clear Hck; lia.
        -- destruct (Pcd eq_refl eq_refl) as [-> _]. specialize (Pni eq_refl). clear Hck; lia.
      * rewrite (U eq_refl). destruct (Pnc eq_refl) as [-> _]. specialize (Ll eq_refl).
        clear Hck; lia.
    + destruct (iscons (s_pc s) op) eqn:EC.
      * destruct (has fl1 F_INDEF) eqn:EI.
        -- destruct (Pci eq_refl eq_refl) as [-> _]. exact Idl.
        -- destruct (Pcd eq_refl eq_refl) as [-> _]. specialize (Pni eq_refl). clear Hck; lia.
      * destruct (Pnc eq_refl) as [-> _]. exact Idl.
    + destruct (iscons (s_pc s) op) eqn:EC.
      * destruct (has fl1 F_INDEF) eqn:EI.
        -- destruct (Pci eq_refl eq_refl) as [-> ->]. cbn [stack_ok].
           split; [clear Hck; lia|]. split; [clear; lia|]. left. split; [reflexivity|].
           apply (stack_mono _ _ (s_dp s)); [clear Hck; lia|exact Ics].
        -- destruct (Pcd eq_refl eq_refl) as [-> ->]. specialize (Pni eq_refl).
           cbn [stack_ok].
           split; [clear Hck; lia|]. split; [clear; lia|]. right.
           split; [clear Hck; lia|]. split; [clear Hck; lia|].
           apply (stack_mono _ _ (s_dp s)); [clear Hck; lia|exact Ics].
      * rewrite (U eq_refl). destruct (Pnc eq_refl) as [-> ->]. specialize (Ll eq_refl).
        apply (stack_mono _ _ (s_dp s)); [clear Hck; lia|exact Ics].
    + rewrite Pjs. exact Ijs.
    + right. clear Hck. lia.
    + destruct (iscons (s_pc s) op) eqn:EC.
      * rewrite (Lc eq_refl).
        destruct (has fl1 F_INDEF) eqn:EI.
        -- right. unfold bad. cbn [s_pc s_dp s_datalen s_flags].
           destruct (Pci eq_refl eq_refl) as [-> _]. specialize (Pi eq_refl).
           split; [clear Hck; lia|]. left. rewrite Ppc. apply Ccons. reflexivity.
        -- left. unfold good. cbn [s_len s_tdp]. specialize (Pni eq_refl). clear Hck; lia.
      * left. unfold good. cbn [s_len s_tdp]. specialize (Ll eq_refl). clear Hck; lia.
  - apply phi_consume; cbn [s_pc s_dp s_jump].
    + exact R0.
    + rewrite Ppc. exact R1.
    + destruct (iscons (s_pc s) op) eqn:EC; [clear Hck; lia|].
      rewrite (U eq_refl). specialize (Ll eq_refl). clear Hck; lia.
    + rewrite Pjs. clear. lia.
Qed.

Lemma jump_post : forall s s1 c,
  Inv s -> gm (s_pc s) <= 27 -> leaf_op (gm (s_pc s)) = false ->
  match_post (gm (s_pc s)) (oplen (gm (s_pc s))) s (Go (inr s1)) ->
  post s (do_jump C machine (oplen (gm (s_pc s))) s1 c).
Proof.
  intros s [pc1 dp1 tdp1 len1 dl1 fl1 tag1 hdr1 cs1 js1] c I Hop Hleaf P.
  pose proof NB as NB.
  destruct I as [Ipc Idp Idl Ics Ijs Ihd Igb].
  destruct (ck_match _ Ipc Hop) as (Cnx & _ & _ & _ & _ & CC).
  destruct CC as [(F & _)|(_ & _ & C2 & C256 & CtP & CtM)]; [congruence|].
  pose proof (ck_base _ Ipc) as (_ & B1 & _ & _ & _).
  pose proof (pc_range _ Ipc) as R0.
  pose proof (pc_range _ Cnx) as R1.
  pose proof (pc_range _ CtP) as R2.
  cbn [match_post s_pc s_dp s_tdp s_len s_datalen s_flags s_hdr s_cons s_jump] in P.
  destruct P as (Ppc & Ptdp & Pjs & Ph2 & Pdp & Pdpl & Pfc & Pni & Pi & Pnc & Pci & Pcd).
  remember (gm (s_pc s)) as op eqn:Eop.
  unfold do_jump. destruct (Z.of_nat (length js1) =? 10); [cbn; unfold EBADMSG; clear; lia|].
  rewrite Ppc. rewrite rd_m by exact C2. cbn [bind post].
  rewrite Z.mod_small by (clear Hck; lia).
  split.
  - constructor;
      cbn [s_pc s_dp s_tdp s_len s_datalen s_flags s_hdr s_cons s_jump].
    + exact CtP.
    + destruct (iscons (s_pc s) op) eqn:EC.
      * destruct (has fl1 F_INDEF) eqn:EI.
        -- destruct (Pci eq_refl eq_refl) as [-> _]. clear Hck; lia.
        -- destruct (Pcd eq_refl eq_refl) as [-> _]. specialize (Pni eq_refl). clear Hck; lia.
      * destruct (Pnc eq_refl) as [-> _]. clear Hck; lia.
    + destruct (iscons (s_pc s) op) eqn:EC.
      * destruct (has fl1 F_INDEF) eqn:EI.
        -- destruct (Pci eq_refl eq_refl) as [-> _]. exact Idl.
        -- destruct (Pcd eq_refl eq_refl) as [-> _]. specialize (Pni eq_refl). clear Hck; lia.
      * destruct (Pnc eq_refl) as [-> _]. exact Idl.
    + destruct (iscons (s_pc s) op) eqn:EC.
      * destruct (has fl1 F_INDEF) eqn:EI.
        -- destruct (Pci eq_refl eq_refl) as [-> ->]. cbn [stack_ok].
           split; [clear Hck; lia|]. split; [clear; lia|]. left. split; [reflexivity|].
           apply (stack_mono _ _ (s_dp s)); [clear Hck; lia|exact Ics].
        -- destruct (Pcd eq_refl eq_refl) as [-> ->]. specialize (Pni eq_refl).
           cbn [stack_ok].
           split; [clear Hck; lia|]. split; [clear; lia|]. right.
           split; [clear Hck; lia|]. split; [clear Hck; lia|].
           apply (stack_mono _ _ (s_dp s)); [clear Hck; lia|exact Ics].
      * destruct (Pnc eq_refl) as [-> ->].
        apply (stack_mono _ _ (s_dp s)); [clear Hck; lia|exact Ics].
    + rewrite Pjs. constructor; [exact Cnx|exact Ijs].
    + right. clear Hck. lia.
    + destruct (has fl1 F_INDEF) eqn:EI.
      * right. unfold bad. cbn [s_pc s_dp s_datalen s_flags]. specialize (Pi eq_refl).
        split; [|left; exact CtM].
        destruct (iscons (s_pc s) op) eqn:EC.
        -- destruct (Pci eq_refl eq_refl) as [-> _]. clear Hck; lia.
        -- destruct (Pnc eq_refl) as [-> _]. clear Hck; lia.
      * left. unfold good. cbn [s_len s_tdp]. specialize (Pni eq_refl). clear Hck; lia.
  - apply phi_consume; cbn [s_pc s_dp s_jump].
    + exact R0.
    + exact R2.
    + clear Hck; lia.
    + rewrite Pjs. cbn [length]. rewrite Nat2Z.inj_succ. clear. lia.
Qed.

Lemma not_live : forall s, mem (s_pc s) (cL ct) = false -> live s = false.
Proof. intros s H. unfold live. rewrite H. reflexivity. Qed.

Lemma ck_fail : forall pc, mem pc (cP ct) = true -> gm pc = 28 ->
  mem (pc + oplen 28) (cP ct) = true /\
  (mem pc (cM ct) = true -> mem (pc + oplen 28) (cM ct) = true).
Proof.
  intros pc H Hop. apply ck_pc in H. unfold check_pc in H. cbv zeta in H.
  apply andb_true_iff in H. destruct H as [_ H]. fold gm in H.
  rewrite Hop in H. cbn [Z.leb Z.eqb Z.compare Pos.compare Pos.compare_cont Pos.eqb] in H.
  apply andb_true_iff in H. destruct H as [H1 H2]. split; [exact H1|].
  exact (imp_true _ _ H2).
Qed.

Lemma ck_end : forall pc, mem pc (cP ct) = true -> end_op (gm pc) = true ->
  let op := gm pc in let nx := pc + oplen op in
  mem pc (cL ct) = false /\ mem nx (cP ct) = true /\
  (has op 2 = true ->
     inM machine (pc + 1) = true /\ mem (gm (pc + 1)) (cP ct) = true /\
     mem (gm (pc + 1)) (cM ct) = true /\ mem (gm (pc + 1)) (cL ct) = true /\
     (gm (gm (pc + 1)) <=? 27) = true /\ has (gm (gm (pc + 1))) 16 = false) /\
  (has op 4 = true -> act_ok machine nact (if has op 2 then pc + 2 else pc + 1) = true).
Proof.
  intros pc H Hop op nx. apply ck_pc in H. unfold check_pc in H. cbv zeta in H.
  apply andb_true_iff in H. destruct H as [_ H]. fold gm in H. fold op in H, Hop.
  assert (R : 32 <= op <= 39).
  { unfold end_op in Hop. apply andb_true_iff in Hop. destruct Hop as [A B].
    apply Z.leb_le in A, B. clear Hck. lia. }
  replace (op <=? 27) with false in H by (symmetry; apply Z.leb_gt; clear Hck; lia).
  replace (op =? 28) with false in H by (symmetry; apply Z.eqb_neq; clear Hck; lia).
  replace (op =? 29) with false in H by (symmetry; apply Z.eqb_neq; clear Hck; lia).
  rewrite Hop in H. fold nx in H.
  apply andb_true_iff in H. destruct H as [HL H]. apply negb_true_iff in HL.
  apply andb_true_iff in H. destruct H as [H H4].
  apply andb_true_iff in H. destruct H as [H1 H2].
  split; [exact HL|]. split; [exact H1|]. split.
  - intro A. pose proof (imp_true _ _ H2 A) as F.
    apply andb_true_iff in F. destruct F as [F F6]. apply negb_true_iff in F6.
    apply andb_true_iff in F. destruct F as [F F5].
    apply andb_true_iff in F. destruct F as [F F4].
    apply andb_true_iff in F. destruct F as [F F3].
    apply andb_true_iff in F. destruct F as [F1 F2].
    repeat split; assumption.
  - exact (imp_true _ _ H4).
Qed.

Lemma ck_act : forall pc, mem pc (cP ct) = true -> gm pc = 30 \/ gm pc = 31 ->
  mem pc (cL ct) = false /\ mem pc (cM ct) = false /\ mem pc (cU ct) = false /\
  mem (pc + oplen (gm pc)) (cP ct) = true /\ act_ok machine nact (pc + 1) = true.
Proof.
  intros pc H Hop. apply ck_pc in H. unfold check_pc in H. cbv zeta in H.
  apply andb_true_iff in H. destruct H as [_ H]. fold gm in H.
  assert (X : (negb (mem pc (cL ct)) &&
     (negb (mem pc (cM ct)) && negb (mem pc (cU ct)) &&
      mem (pc + oplen (gm pc)) (cP ct) && act_ok machine nact (pc + 1)))%bool = true).
  { destruct Hop as [E|E]; rewrite E in *; exact H. }
  apply andb_true_iff in X. destruct X as [X0 X].
  apply andb_true_iff in X. destruct X as [X X4].
  apply andb_true_iff in X. destruct X as [X X3].
  apply andb_true_iff in X. destruct X as [X1 X2].
  apply negb_true_iff in X0, X1, X2. repeat split; assumption.
Qed.

Lemma ck_ret : forall pc, mem pc (cP ct) = true -> gm pc = 40 ->
  mem pc (cL ct) = false /\ mem pc (cM ct) = false /\ mem pc (cU ct) = false.
Proof.
  intros pc H Hop. apply ck_pc in H. unfold check_pc in H. cbv zeta in H.
  apply andb_true_iff in H. destruct H as [_ H]. fold gm in H. rewrite Hop in H.
  assert (X : (negb (mem pc (cL ct)) &&
     (negb (mem pc (cM ct)) && negb (mem pc (cU ct))))%bool = true) by exact H.
  apply andb_true_iff in X. destruct X as [X0 X].
  apply andb_true_iff in X. destruct X as [X1 X2].
  apply negb_true_iff in X0, X1, X2. repeat split; assumption.
Qed.

Lemma ck_zero : gm 0 <= 27 /\ has (gm 0) 16 = false /\ has (gm 0) 1 = false /\
  mem 0 (cP ct) = true /\ mem 0 (cM ct) = false /\ mem 0 (cU ct) = false.
Proof.
  pose proof Hck as H. unfold check in H. fold gm in H.
  apply andb_true_iff in H. destruct H as [H _].
  apply andb_true_iff in H. destruct H as [H H6].
  apply andb_true_iff in H. destruct H as [H H5].
  apply andb_true_iff in H. destruct H as [H H4].
  apply andb_true_iff in H. destruct H as [H H3].
  apply andb_true_iff in H. destruct H as [H1 H2].
  apply negb_true_iff in H2, H3, H5, H6. apply Z.leb_le in H4.
  repeat split; assumption.
Qed.

Lemma act_post : forall s c,
  Inv s -> gm (s_pc s) = 30 \/ gm (s_pc s) = 31 ->
  post s (do_act C act nact machine data (gm (s_pc s)) (oplen (gm (s_pc s))) s c).
Proof.
  intros [pc dp tdp len dl fl tag hdr cs js] c I Hop.
  destruct I as [Ipc Idp Idl Ics Ijs Ihd Igb].
  cbn [s_pc s_dp s_tdp s_len s_datalen s_flags s_hdr s_cons s_jump] in *.
  destruct (ck_act _ Ipc Hop) as (KL & KM & KU & KP & KA).
  pose proof (ck_base _ Ipc) as (_ & B1 & _ & _ & _).
  pose proof (pc_range _ Ipc) as R0.
  assert (P0 : pc <> 0).
  { intro E. subst pc. pose proof ck_zero as (Z0 & _). destruct Hop as [E|E]; clear Hck; lia. }
  destruct Ihd as [E|Ihd]; [contradiction|].
  destruct Igb as [G|(_ & B)].
  2:{ cbn [s_pc s_flags] in B. destruct B as [B|(B & _)]; congruence. }
  unfold good in G. cbn [s_len s_tdp] in G.
  assert (X : forall c', post (mkst pc dp tdp len dl fl tag hdr cs js)
     (Go (mkst (pc + oplen (gm pc)) dp tdp len dl fl tag hdr cs js, c'))).
  { intro c'. split.
    - constructor; cbn [s_pc s_dp s_tdp s_len s_datalen s_flags s_hdr s_cons s_jump];
        try assumption.
      + right. exact Ihd.
      + left. exact G.
    - apply phi_advance.
      + apply not_live. exact KL.
      + cbn [s_pc]. clear Hck. lia.
      + cbn [s_dp]. clear. lia.
      + reflexivity. }
  unfold do_act. destruct ((gm pc =? 31) && negb (has fl F_LAST)); [apply X|].
  rewrite (rd_act _ KA). cbn [bind].
  destruct (call_ok (pc + 1) hdr tag tdp len c) as [(r & E & Hr)|(c' & E)];
    [exact KA|exact Ihd|apply G|apply G| |].
  - rewrite E. cbn. clear Hck. lia.
  - rewrite E. cbn [bind]. apply X.
Qed.

Lemma end_post : forall s c,
  Inv s -> end_op (gm (s_pc s)) = true ->
  post s (do_end C act nact machine data (gm (s_pc s)) (oplen (gm (s_pc s))) s c).
Proof.
  intros [pc dp tdp len dl fl tag hdr cs js] c I Hop.
  pose proof NB as NB.
  destruct I as [Ipc Idp Idl Ics Ijs Ihd Igb].
  cbn [s_pc s_dp s_tdp s_len s_datalen s_flags s_hdr s_cons s_jump] in *.
  destruct (ck_end _ Ipc Hop) as (KL & KP & K2 & K4).
  pose proof (ck_base _ Ipc) as (_ & B1 & _ & _ & _).
  pose proof (pc_range _ Ipc) as R0.
  remember (gm pc) as op eqn:Eop.
  assert (EB : forall X : out (st * C), X = Fin EBADMSG ->
    post (mkst pc dp tdp len dl fl tag hdr cs js) X).
  { intros X ->. cbn. unfold EBADMSG. clear. lia. }
  unfold do_end.
  destruct (((op =? 33) || (op =? 37)) && negb (has fl F_MATCHED));
    [apply EB; reflexivity|].
  destruct cs as [|((cdp & cdl) & ch) cs']; [apply EB; reflexivity|].
  cbn [stack_ok] in Ics. destruct Ics as (Sh & Sd & Sr).
  (* going round *)
  assert (LOOP : has op 2 = true -> dp < dl ->
    (rd machine (pc + 1) = Go (gm (pc + 1))) /\
    post (mkst pc dp tdp len dl fl tag hdr ((cdp, cdl, ch) :: cs') js)
     (Go (mkst (gm (pc + 1)) dp cdp dl dl fl tag ch ((cdp, cdl, ch) :: cs') js, c))).
  { intros E2 Hlt. destruct (K2 E2) as (L1 & L2 & L3 & L4 & L5 & L6).
    split; [apply rd_m; exact L1|]. split.
    - constructor; cbn [s_pc s_dp s_tdp s_len s_datalen s_flags s_hdr s_cons s_jump];
        try assumption.
      + cbn [stack_ok]. split; [exact Sh|]. split; [exact Sd|exact Sr].
      + right. exact Sh.
      + right. unfold bad. cbn [s_pc s_dp s_datalen]. split; [exact Hlt|].
        left. exact L3.
    - apply phi_loop.
      + apply not_live. exact KL.
      + unfold live. cbn [s_pc s_dp s_datalen s_flags]. rewrite L4, L5, L6.
        replace (dp <? dl) with true by (symmetry; apply Z.ltb_lt; exact Hlt).
        cbn. apply orb_true_r.
      + exact R0.
      + cbn [s_pc]. apply pc_range. exact L2.
      + reflexivity.
      + reflexivity. }
  (* leaving *)
  assert (LEAVE : forall l dp' dl',
    0 <= l -> cdp + l <= N -> dp <= dp' <= dl' -> dl' <= N -> stack_ok dl' cdp cs' ->
    post (mkst pc dp tdp len dl fl tag hdr ((cdp, cdl, ch) :: cs') js)
     (c0 <- (if has op 4 then
               i <- rd machine (if has op 2 then pc + 2 else pc + 1) ;;
               call C act nact data i ch 0 cdp l c
             else Go c) ;;
      Go (mkst (pc + oplen op) dp' cdp l dl' fl tag ch cs' js, c0))).
  { intros l dp' dl' Hl Hs Hdp Hdl Hst.
    assert (X : forall c', post (mkst pc dp tdp len dl fl tag hdr ((cdp, cdl, ch) :: cs') js)
       (Go (mkst (pc + oplen op) dp' cdp l dl' fl tag ch cs' js, c'))).
    { intro c'. split.
      - constructor; cbn [s_pc s_dp s_tdp s_len s_datalen s_flags s_hdr s_cons s_jump];
          try assumption.
        + clear Hck. lia.
        + apply (stack_mono _ _ cdp); [clear Hck; lia|exact Hst].
        + right. exact Sh.
        + left. split; assumption.
      - apply phi_advance.
        + apply not_live. exact KL.
        + cbn [s_pc]. clear Hck. lia.
        + cbn [s_dp]. clear Hck. lia.
        + reflexivity. }
    destruct (has op 4) eqn:E4; [|apply X].
    specialize (K4 eq_refl). rewrite (rd_act _ K4). cbn [bind].
    destruct (call_ok (if has op 2 then pc + 2 else pc + 1) ch 0 cdp l c)
      as [(r & E & Hr)|(c' & E)]; [exact K4|exact Sh|exact Hl|exact Hs| |].
    - rewrite E. cbn. clear Hck. lia.
    - rewrite E. cbn [bind]. apply X. }
  destruct (cdl =? 0) eqn:E0.
  - apply Z.eqb_eq in E0.
    assert (Sr' : stack_ok dl cdp cs').
    { destruct Sr as [(_ & S)|(S & _)]; [exact S|]. exfalso. clear Hck. lia. }
    rewrite !usub_le by sm.
    destruct (dl - dp <? 2) eqn:E2; [apply EB; reflexivity|]. apply Z.ltb_ge in E2.
    destruct (rd_d dp) as (b & Hb & _); [clear Hck; lia|]. rewrite Hb. cbn [bind].
    destruct (negb (b =? 0)).
    + destruct (has op 2) eqn:E3; [|apply EB; reflexivity].
      destruct (LOOP eq_refl) as [L1 L2]; [clear Hck; lia|].
      rewrite L1. cbn [bind]. exact L2.
    + rewrite !uadd_le by sm.
      destruct (rd_d (dp + 1)) as (b1 & Hb1 & _); [clear Hck; lia|].
      rewrite Hb1. cbn [bind].
      destruct (negb (b1 =? 0)); [apply EB; reflexivity|]. cbn [bind].
      rewrite (usub_le (dp + 2)) by sm. rewrite usub_le by sm.
      apply LEAVE; try (clear Hck; lia). exact Sr'.
  - apply Z.eqb_neq in E0.
    destruct Sr as [(S & _)|(S1 & S2 & S3)]; [contradiction|].
    destruct ((dp <? dl) && has op 2) eqn:E1.
    + apply andb_true_iff in E1. destruct E1 as [E1 E2]. apply Z.ltb_lt in E1.
      destruct (LOOP E2 E1) as [L1 L2]. rewrite L1. cbn [bind]. exact L2.
    + destruct (dp =? dl) eqn:E2; cbn [negb]; [|apply EB; reflexivity].
      apply Z.eqb_eq in E2. cbn [bind]. rewrite usub_le by sm.
      apply LEAVE; try (clear Hck; lia). exact S3.
Qed.

Theorem step_post : forall s c, Inv s -> post s (step C act nact machine data (s, c)).
Proof.
  intros s c I. pose proof (i_pc _ I) as Ipc.
  pose proof (ck_base _ Ipc) as (B0 & B1 & B2 & B3 & B4).
  pose proof (pc_range _ Ipc) as R0.
  unfold step. fold M.
  replace (M <=? s_pc s) with false by (symmetry; apply Z.leb_gt; clear Hck; lia).
  rewrite B3. cbn [bind]. rewrite B4. cbn [bind].
  replace (M <? s_pc s + oplen (gm (s_pc s))) with false
    by (symmetry; apply Z.ltb_ge; clear Hck; lia).
  destruct (gm (s_pc s) <=? 27) eqn:E27.
  - apply Z.leb_le in E27.
    pose proof (ck_match _ Ipc E27) as (_ & C8 & _ & _ & _ & CC).
    pose proof (do_match_ok (gm (s_pc s)) (oplen (gm (s_pc s))) s
                  (i_dp _ I) (i_dl _ I) C8) as P.
    destruct (do_match machine data (gm (s_pc s)) (oplen (gm (s_pc s))) s) as [[s1|s1]|r|].
    + cbn [bind]. apply skip_post; [exact I|exact E27| |exact P].
      intro E. pose proof ck_zero as (_ & Z1 & Z2 & _). split; assumption.
    + cbn [bind]. destruct (leaf_op (gm (s_pc s))) eqn:EL.
      * apply leaf_post; assumption.
      * destruct CC as [(F & _)|(_ & -> & _)]; [congruence|].
        apply jump_post; assumption.
    + cbn in P |- *. clear Hck. lia.
    + cbn in P. contradiction.
  - apply Z.leb_gt in E27. cbn [bind].
    replace (leaf_op (gm (s_pc s))) with false.
    2:{ symmetry. unfold leaf_op. apply Bool.not_true_iff_false. intro F.
        apply existsb_exists in F. destruct F as (x & F1 & F2). apply Z.eqb_eq in F2.
        cbn [In] in F1. clear Hck. lia. }
    replace (jump_op (gm (s_pc s))) with false.
    2:{ symmetry. unfold jump_op. apply Bool.not_true_iff_false. intro F.
        apply existsb_exists in F. destruct F as (x & F1 & F2). apply Z.eqb_eq in F2.
        cbn [In] in F1. clear Hck. lia. }
    destruct (gm (s_pc s) =? 28) eqn:E28.
    { apply Z.eqb_eq in E28.
      destruct (has (s_flags s) F_MATCHED) eqn:EM; cbn [negb];
        [|cbn; unfold EBADMSG; clear; lia].
      destruct (ck_fail _ Ipc E28) as (C1 & C2). rewrite <- E28 in C1, C2.
      assert (P0 : s_pc s <> 0).
      { intro E. rewrite E in E28. pose proof ck_zero as (Z0 & _). clear Hck. lia. }
      destruct I as [Jpc Jdp Jdl Jcs Jjs Jhd Jgb].
      split.
      - constructor; cbn [s_pc s_dp s_tdp s_len s_datalen s_flags s_hdr s_cons s_jump];
          try assumption.
        + right. destruct Jhd as [E|E]; [contradiction|exact E].
        + destruct Jgb as [G|(G & B)]; [left; exact G|]. right.
          unfold bad. cbn [s_pc s_dp s_datalen s_flags]. split; [exact G|].
          destruct B as [B|(_ & B)]; [|congruence]. left. apply C2. exact B.
      - apply phi_advance.
        + unfold live. rewrite EM, E28. cbn.
          rewrite andb_false_r. reflexivity.
        + cbn [s_pc]. clear Hck. lia.
        + cbn [s_dp]. clear. lia.
        + reflexivity. }
    apply Z.eqb_neq in E28.
    destruct (gm (s_pc s) =? 29) eqn:E29.
    { destruct (s_cons s); [destruct (s_jump s)|]; cbn; unfold EBADMSG; clear; lia. }
    apply Z.eqb_neq in E29.
    destruct (end_op (gm (s_pc s))) eqn:EE; [apply end_post; assumption|].
    destruct ((gm (s_pc s) =? 30) || (gm (s_pc s) =? 31)) eqn:EA.
    { apply act_post; [exact I|]. apply orb_prop in EA.
      destruct EA as [E|E]; apply Z.eqb_eq in E; [left|right]; exact E. }
    destruct (gm (s_pc s) =? 40) eqn:E40; [|cbn; unfold EBADMSG; clear; lia].
    apply Z.eqb_eq in E40.
    destruct (ck_ret _ Ipc E40) as (KL & KM & KU).
    destruct (s_jump s) as [|t j] eqn:EJ; [cbn; unfold EBADMSG; clear; lia|].
    assert (P0 : s_pc s <> 0).
    { intro E. rewrite E in E40. pose proof ck_zero as (Z0 & _). clear Hck. lia. }
    destruct I as [Jpc Jdp Jdl Jcs Jjs Jhd Jgb].
    rewrite EJ in Jjs. inversion Jjs as [|? ? J1 J2]; subst.
    split.
    + constructor; cbn [s_pc s_dp s_tdp s_len s_datalen s_flags s_hdr s_cons s_jump];
        try assumption.
      * right. destruct Jhd as [E|E]; [contradiction|exact E].
      * destruct Jgb as [G|(G & B)]; [left; exact G|].
        destruct B as [B|(B & _)]; congruence.
    + apply phi_return.
      * apply not_live. exact KL.
      * exact R0.
      * cbn [s_pc]. apply pc_range. exact J1.
      * reflexivity.
      * cbn [s_jump]. rewrite EJ. reflexivity.
Qed.

Lemma phi_nonneg : forall s, Inv s -> 0 <= phi s.
Proof.
  intros s I. pose proof (pc_range _ (i_pc _ I)). pose proof (i_dp _ I).
  pose proof (i_dl _ I). pose proof (live_if s). pose proof M_pos.
  unfold phi, K, J in *. clear Hck. nia.
Qed.

(** the run *)
Theorem run_ok : forall n s c, Inv s -> phi s < Z.of_nat n ->
  exists r, run C act nact machine data n (s, c) = Fin r /\ r <= 0.
Proof.
  induction n as [|n IH]; intros s c I H.
  - exfalso. pose proof (phi_nonneg s I). clear Hck. lia.
  - cbn [run]. pose proof (step_post s c I) as P.
    destruct (step C act nact machine data (s, c)) as [[s' c']|r|].
    + cbn [bind]. destruct P as [I' D]. apply IH; [exact I'|].
      rewrite Nat2Z.inj_succ in H. clear Hck. lia.
    + exists r. split; [reflexivity|exact P].
    + contradiction.
Qed.

Lemma Inv_st0 : Inv (st0 N).
Proof.
  pose proof NB. pose proof ck_zero as (Z0 & _ & _ & Z1 & _).
  constructor; cbn.
  - exact Z1.
  - clear Hck. lia.
  - clear. lia.
  - trivial.
  - constructor.
  - left. reflexivity.
  - left. unfold good. cbn. clear Hck. lia.
Qed.

Lemma phi_st0 : phi (st0 N) <= (N + 1) * (2 * M + 2) + M.
Proof.
  unfold phi. pose proof (live_if (st0 N)) as L. unfold K in *.
  cbn [st0 s_dp s_jump s_pc length]. pose proof NB. clear Hck.
  change (Z.of_nat 0) with 0. nia.
Qed.

End Step.

(** For every table that passes the check, every input and every behaviour of
    the actions, the decoder returns. *)
Theorem decoder_ok : forall (C : Type) act nact machine ct data n (c : C),
  check machine nact ct = true ->
  (forall i, 0 <= nth i data 0) ->
  (Z.of_nat (length data) + 2) * (2 * machlen machine + 2) <= Z.of_nat n ->
  exists r, ber_decoder C act nact machine data n c = Fin r /\ r <= 0.
Proof.
  intros C act nact machine ct data n c Hck Hb Hn. unfold ber_decoder.
  destruct (Z.of_nat (length data) >? 2 ^ 18) eqn:E.
  - exists EMSGSIZE. split; [reflexivity|]. unfold EMSGSIZE. lia.
  - rewrite Z.gtb_ltb in E. apply Z.ltb_ge in E.
    apply (run_ok C act nact machine data ct Hb E Hck).
    + eapply Inv_st0; eassumption.
    + pose proof (phi_st0 machine data ct E) as P.
      assert (0 <= machlen machine) by (unfold machlen; lia). clear Hck. lia.
Qed.
