(** * C95, C96: the registry of object identifiers *)
From Coq Require Import ZArith List Lia Bool Decimal NArith.
Import ListNotations.
From Verif Require Import Bytes OidTables OidModel OidSpec.
Open Scope Z_scope.

(** ** C95: look_up_OID finds exactly the registered identifiers *)

(** the registered object identifier number [o] (lc_asn1.h) *)
Definition arcs_of (o : Z) : list Z := nth (Z.to_nat o) oid_arcs [].

Lemma ix_nth {A} : forall (l : list A) i x, ix l i = Some x -> 0 <= i < Z.of_nat (length l) /\ nth_error l (Z.to_nat i) = Some x.
Proof.
  intros l i x H. unfold ix in H. destruct (Z.leb_spec 0 i); [|discriminate].
  split; [|exact H]. split; [lia|].
  assert (nth_error l (Z.to_nat i) <> None) by congruence. apply nth_error_Some in H1. lia.
Qed.
Lemma ix_some {A} : forall (l : list A) i, 0 <= i < Z.of_nat (length l) -> exists x, ix l i = Some x.
Proof.
  intros l i H. unfold ix. destruct (Z.leb_spec 0 i); [|lia].
  destruct (nth_error l (Z.to_nat i)) eqn:E; [eauto|]. apply nth_error_None in E. lia.
Qed.

(** the encodings, from the tables *)
Definition enc_at (b e : Z) : list Z := firstn (Z.to_nat (e - b)) (skipn (Z.to_nat b) oid_data).

(** what is checked about the tables by computation *)
Definition row_ok (r : Z * Z) : bool :=
  let o := snd r in
  (0 <=? o) && (o <? OID__NR) &&
  match ix oid_index o, ix oid_index (o + 1) with
  | Some b, Some e => (0 <=? b) && (b <? e) && (e <=? 919)
  | _, _ => false
  end.
Lemma rows_ok : forallb row_ok oid_search_table = true.
Proof. vm_compute. reflexivity. Qed.
Lemma table_length : Z.of_nat (length oid_search_table) = OID__NR.
Proof. vm_compute. reflexivity. Qed.
Lemma data_length : length oid_data = 919%nat.
Proof. vm_compute. reflexivity. Qed.

Fixpoint zlist_eqb (a b : list Z) : bool :=
  match a, b with
  | [], [] => true
  | x :: a, y :: b => (x =? y) && zlist_eqb a b
  | _, _ => false
  end.
Lemma zlist_eqb_eq : forall a b, zlist_eqb a b = true -> a = b.
Proof.
  induction a as [|x a IH]; intros [|y b] H; try reflexivity; try discriminate.
  cbn in H. apply andb_true_iff in H as [E H]. apply Z.eqb_eq in E. subst. f_equal; auto.
Qed.

Definition all_oids : list Z := map Z.of_nat (seq 0 (Z.to_nat OID__NR)).
Lemma all_oids_in : forall o, 0 <= o < OID__NR -> In o all_oids.
Proof.
  intros o H. unfold all_oids. apply in_map_iff. exists (Z.to_nat o). split; [lia|].
  apply in_seq. lia.
Qed.
(** the bytes registered are the encodings, and looking each up finds it *)
Lemma all_found : forallb (fun o =>
    match OID_to_data o with
    | Some (0, d) => zlist_eqb d (enc_oid (arcs_of o)) &&
                     match look_up_OID d with Some r => r =? o | None => false end
    | _ => false
    end) all_oids = true.
Proof. vm_compute. reflexivity. Qed.

Lemma nth_error_skip : forall (l : list Z) n i, nth_error (skipn n l) i = nth_error l (n + i).
Proof.
  induction l as [|x l IH]; intros [|n] i; try reflexivity.
  - cbn. destruct i; reflexivity.
  - cbn [skipn plus nth_error]. apply IH.
Qed.
(** a comparison that ends with [Eq] has seen equal bytes *)
Lemma tail_cmp_eq : forall len base data, 0 <= base -> (len <= length data)%nat ->
  tail_cmp len base data = Some Eq -> firstn len data = firstn len (skipn (Z.to_nat base) oid_data).
Proof.
  induction len as [|l IH]; intros base data Hb Hl H; [reflexivity|].
  cbn in H. destruct (ix oid_data (base + Z.of_nat l)) as [a|] eqn:Ea; [|discriminate].
  destruct (nth_error data l) as [b|] eqn:Eb; [|discriminate].
  destruct (Z.ltb_spec b a); [discriminate|]. destruct (Z.ltb_spec a b); [discriminate|].
  assert (a = b) by lia. subst b. apply ix_nth in Ea as [R Ea].
  assert (F : forall (X : list Z) x, nth_error X l = Some x -> firstn (S l) X = firstn l X ++ [x]).
  { clear. induction l as [|l IH]; intros [|y X] x E; try discriminate.
    - cbn in E. injection E as ->. reflexivity.
    - cbn in E. cbn [firstn app]. f_equal. apply IH, E. }
  rewrite (F data a Eb).
  rewrite (F (skipn (Z.to_nat base) oid_data) a).
  - f_equal. apply IH; [lia|lia|exact H].
  - rewrite nth_error_skip. rewrite <- Ea. f_equal. lia.
Qed.
Lemma tail_cmp_some : forall len base data, 0 <= base -> (len <= length data)%nat ->
  base + Z.of_nat len <= 919 -> exists c, tail_cmp len base data = Some c.
Proof.
  induction len as [|l IH]; intros base data Hb Hl Hd; [cbn; eauto|].
  cbn. destruct (ix_some oid_data (base + Z.of_nat l)) as [a ->]; [rewrite data_length; lia|].
  destruct (nth_error data l) as [b|] eqn:Eb; [|apply nth_error_None in Eb; lia].
  destruct (b <? a); [eauto|]. destruct (a <? b); [eauto|]. apply IH; lia.
Qed.

Opaque oid_data oid_index oid_search_table.
(** what the search returns: always something; a registered number only if
    its bytes are the input *)
Lemma search_ok : forall fuel h data i k, 0 <= i -> k <= OID__NR -> k - i <= Z.of_nat fuel ->
  exists r, oid_search fuel h data i k = Some r /\
    (r = OID__NR \/ (0 <= r < OID__NR /\ OID_to_data r = Some (0, data))).
Proof.
  induction fuel as [|f IH]; intros h data i k Hi Hk Hf.
  - cbn. destruct (Z.ltb_spec i k); [lia|]. eauto.
  - cbn [oid_search]. destruct (Z.ltb_spec i k); [|eauto]. cbv zeta.
    assert (J : i <= (i + k) / 2 < k).
    { split; [apply Z.div_le_lower_bound; lia|apply Z.div_lt_upper_bound; lia]. }
    set (j := (i + k) / 2) in *.
    destruct (ix_some oid_search_table j) as [[x o] E]; [rewrite table_length; lia|]. rewrite E.
    apply ix_nth in E as [_ E]. apply nth_error_In in E.
    pose proof rows_ok as R. rewrite forallb_forall in R. apply R in E. clear R.
    unfold row_ok in E. cbn [snd] in E.
    destruct (ix oid_index o) as [b|] eqn:Eb; [|rewrite andb_false_r in E; discriminate].
    destruct (ix oid_index (o + 1)) as [e|] eqn:Ee; [|rewrite andb_false_r in E; discriminate].
    repeat rewrite andb_true_iff in E. destruct E as [[E1 E2] [[E3 E4] E5]].
    apply Z.leb_le in E1, E3, E5. apply Z.ltb_lt in E2, E4.
    destruct (h <? x); [apply IH; lia|]. destruct (x <? h); [apply IH; lia|].
    rewrite (Z.mod_small (e - b)) by (unfold W64; lia).
    destruct (Z.ltb_spec (Z.of_nat (length data)) (e - b)); [apply IH; lia|].
    destruct (Z.ltb_spec (e - b) (Z.of_nat (length data))); [apply IH; lia|].
    destruct (tail_cmp_some (Z.to_nat (e - b)) b data) as [c C]; [lia|lia|lia|]. rewrite C.
    destruct c; [|apply IH; lia|apply IH; lia].
    exists o. split; [reflexivity|]. right. split; [lia|].
    unfold OID_to_data. destruct (Z.leb_spec OID__NR o); [lia|]. rewrite Eb, Ee.
    apply tail_cmp_eq in C; [|lia|lia]. rewrite <- C. rewrite firstn_all2 by lia. reflexivity.
Qed.
Lemma lookup_ok : forall data, exists r, look_up_OID data = Some r /\
    (r = OID__NR \/ (0 <= r < OID__NR /\ OID_to_data r = Some (0, data))).
Proof.
  intros data. unfold look_up_OID. apply search_ok; [lia|lia|].
  rewrite Z2Nat.id by (unfold OID__NR; lia). lia.
Qed.
Transparent oid_data oid_index oid_search_table.

Lemma to_data_enc : forall o, 0 <= o < OID__NR -> OID_to_data o = Some (0, enc_oid (arcs_of o)).
Proof.
  intros o H. pose proof all_found as A. rewrite forallb_forall in A. specialize (A o (all_oids_in o H)).
  destruct (OID_to_data o) as [[r d]|]; [|discriminate]. destruct r; try discriminate.
  apply andb_true_iff in A as [A _]. apply zlist_eqb_eq in A. subst. reflexivity.
Qed.

(** For every input shorter than 2^32 bytes (the loop counter is an unsigned
    int): the lookup ends without leaving a table or the input; it returns
    the number of the registered identifier whose encoding the input is, and
    OID__NR if there is none. *)
Theorem C95_lookup : forall data, Z.of_nat (length data) < 2 ^ 32 ->
  exists r, look_up_OID data = Some r /\ 0 <= r <= OID__NR /\
    (forall o, 0 <= o < OID__NR -> (r = o <-> data = enc_oid (arcs_of o))) /\
    (r = OID__NR <-> forall o, 0 <= o < OID__NR -> data <> enc_oid (arcs_of o)).
Proof.
  intros data _.
  assert (F : forall o, 0 <= o < OID__NR -> look_up_OID (enc_oid (arcs_of o)) = Some o).
  { intros o H. pose proof all_found as A. rewrite forallb_forall in A. specialize (A o (all_oids_in o H)).
    destruct (OID_to_data o) as [[r d]|]; [|discriminate]. destruct r; try discriminate.
    apply andb_true_iff in A as [A B]. apply zlist_eqb_eq in A. subst.
    destruct (look_up_OID (enc_oid (arcs_of o))); [|discriminate]. apply Z.eqb_eq in B. subst. reflexivity. }
  destruct (lookup_ok data) as [r [E S]].
  exists r.
  assert (NR : 0 < OID__NR) by (vm_compute; reflexivity).
  split; [exact E|]. split; [destruct S; lia|].
  assert (G : forall o, 0 <= o < OID__NR -> (r = o <-> data = enc_oid (arcs_of o))).
  { intros o H. split; intros X.
    - subst r. destruct S as [S|[_ S]]; [lia|]. rewrite to_data_enc in S by assumption. congruence.
    - subst data. rewrite F in E by assumption. congruence. }
  split; [exact G|]. split; intros X.
  - intros o H Y. apply G in Y; [lia|exact H].
  - destruct S as [S|[B S]]; [exact S|]. exfalso. apply (X r B). rewrite to_data_enc in S by assumption. congruence.
Qed.
Print Assumptions C95_lookup.
Example C95_lookup_ex :
  look_up_OID [96; 134; 72; 1; 101; 3; 4; 3; 17] = Some OID_id_MLDSA44 /\
  look_up_OID [96; 134; 72; 1; 101; 3; 4; 3; 32] = Some OID__NR /\ look_up_OID [] = Some OID__NR /\
  arcs_of OID_id_MLDSA44 = [2; 16; 840; 1; 101; 3; 4; 3; 17].
Proof. do 3 (split; [vm_compute; reflexivity|]). vm_compute. reflexivity. Qed.

(** OID_to_data gives the encoding of the identifier written in the header,
    and no two enumerators share one. *)
Theorem C95_data : forall o, 0 <= o < OID__NR -> OID_to_data o = Some (0, enc_oid (arcs_of o)).
Proof. exact to_data_enc. Qed.
Print Assumptions C95_data.
Theorem C95_distinct : forall o p, 0 <= o < OID__NR -> 0 <= p < OID__NR ->
  enc_oid (arcs_of o) = enc_oid (arcs_of p) -> o = p.
Proof.
  assert (A : forallb (fun o => Nat.ltb (length (enc_oid (arcs_of o))) 100) all_oids = true) by (vm_compute; reflexivity).
  rewrite forallb_forall in A.
  intros o p Ho Hp E. specialize (A o (all_oids_in o Ho)). apply Nat.ltb_lt in A.
  destruct (C95_lookup (enc_oid (arcs_of o))) as [r [_ [_ [G _]]]].
  { lia. }
  rewrite <- (proj2 (G o Ho) eq_refl). apply (proj2 (G p Hp)). exact E.
Qed.
Print Assumptions C95_distinct.

(** parse_OID accepts exactly an OBJECT IDENTIFIER with a one-byte length
    that covers the rest of the input. *)
Theorem C95_parse : forall data, Z.of_nat (length data) < 2 ^ 32 ->
  exists rc v, parse_OID data = Some (rc, v) /\
    (rc = 0 <-> exists d, data = 6 :: Z.of_nat (length d) :: d /\ d <> []) /\
    (rc = 0 -> look_up_OID (skipn 2 data) = v /\ v <> None) /\ (rc <> 0 -> rc = -74 /\ v = None).
Proof.
  intros data L. unfold parse_OID.
  destruct data as [|t [|l [|a d]]];
    try (exists EBADMSG, None; split; [reflexivity|]; split;
         [split; [discriminate|intros [[|x y] [E N]]; [congruence|cbn in E; discriminate]]
         |split; [discriminate|auto]]).
  remember (a :: d) as w. 
  replace (Z.of_nat (length (t :: l :: w)) - 2) with (Z.of_nat (length w)) by (cbn [length]; lia).
  destruct (C95_lookup w) as [r [E _]]; [cbn [length] in L; lia|].
  destruct (Z.eqb_spec t 6) as [->|T]; [destruct (Z.eqb_spec l (Z.of_nat (length w))) as [->|Q]|];
    cbn [negb orb skipn].
  - rewrite E. exists 0, (Some r). split; [reflexivity|]. split; [|split; [|congruence]].
    + split; [intros _; exists w; split; [reflexivity|subst; discriminate]|reflexivity].
    + intros _. split; [reflexivity|discriminate].
  - exists EBADMSG, None. split; [reflexivity|]. split; [|split; [discriminate|auto]].
    split; [discriminate|]. intros [x [X N]]. injection X as X1 X2. subst x. contradiction.
  - exists EBADMSG, None. split; [reflexivity|]. split; [|split; [discriminate|auto]].
    split; [discriminate|]. intros [x [X N]]. injection X as X0 X1 X2. contradiction.
Qed.
Print Assumptions C95_parse.
Example C95_parse_ex : parse_OID [6; 3; 85; 4; 3] = Some (0, Some OID_commonName) /\
  parse_OID [6; 3; 85; 4; 3; 0] = Some (EBADMSG, None).
Proof. split; vm_compute; reflexivity. Qed.

(** ** C96: sprint_oid prints the object identifier *)

Lemma dec_numeral : forall n, dec n = numeral n.
Proof.
  intros n. unfold dec, numeral. generalize (N.to_uint (Z.to_N n)).
  induction u; cbn; congruence.
Qed.

Lemma b128_split : forall f n m, b128 (S f) n m = (if n <? 128 then [] else b128 f (n / 128) 128) ++ [n mod 128 + m].
Proof. reflexivity. Qed.

(** value of a list of digits with continuation bits *)
Definition val (a : Z) (l : list Z) : Z := fold_left (fun a d => a * 128 + d mod 128) l a.
Lemma val_app : forall a l m, val a (l ++ m) = val (val a l) m.
Proof. intros. apply fold_left_app. Qed.
Lemma val_b128 : forall f n m, 0 <= n < 128 ^ Z.of_nat f -> (m = 0 \/ m = 128) -> val 0 (b128 f n m) = n.
Proof.
  induction f as [|f IH]; intros n m H M; [cbn in *; lia|].
  rewrite b128_split, val_app. cbn [val fold_left].
  assert (D : (n mod 128 + m) mod 128 = n mod 128).
  { destruct M as [-> | ->].
    - rewrite Z.add_0_r, Z.mod_mod by lia. reflexivity.
    - replace (n mod 128 + 128) with (n mod 128 + 1 * 128) by lia. rewrite Z.mod_add, Z.mod_mod by lia. reflexivity. }
  destruct (Z.ltb_spec n 128).
  - cbn [val fold_left]. unfold val. cbn. rewrite D. rewrite Z.mod_small by lia. reflexivity.
  - unfold val at 1. cbn [fold_left]. fold (val 0 (b128 f (n / 128) 128)).
    rewrite IH; [|split; [apply Z.div_pos; lia|]|auto].
    + rewrite D. pose proof (Z.div_mod n 128). lia.
    + apply Z.div_lt_upper_bound; [lia|]. rewrite Nat2Z.inj_succ, Z.pow_succ_r in H by lia. lia.
Qed.
Lemma b128_cont : forall f n, 0 <= n -> Forall (fun d => 128 <= d < 256) (b128 f n 128).
Proof.
  induction f as [|f IH]; intros n H; [constructor|]. rewrite b128_split. apply Forall_app. split.
  - destruct (n <? 128); [constructor|]. apply IH. apply Z.div_pos; lia.
  - constructor; [|constructor]. pose proof (Z.mod_pos_bound n 128). lia.
Qed.
Lemma land128 : forall d, 0 <= d < 256 -> (Z.land d 128 =? 0) = (d <? 128) /\ Z.land d 127 = d mod 128.
Proof.
  intros d H. split.
  - change 128 with (2 ^ 7) at 1.
    assert (E : Z.land d (2 ^ 7) = if Z.testbit d 7 then 128 else 0).
    { rewrite Z.land_comm. destruct (Z.testbit d 7) eqn:T.
      - apply Z.bits_inj'. intros i Hi. rewrite Z.land_spec, Z.pow2_bits_eqb by lia.
        change 128 with (2 ^ 7). rewrite Z.pow2_bits_eqb by lia. destruct (Z.eqb_spec 7 i); [subst; rewrite T|]; reflexivity.
      - apply Z.bits_inj'. intros i Hi. rewrite Z.land_spec, Z.pow2_bits_eqb, Z.bits_0 by lia.
        destruct (Z.eqb_spec 7 i); [subst; rewrite T|]; reflexivity. }
    rewrite E. rewrite Z.testbit_odd, Z.shiftr_div_pow2 by lia. change (2 ^ 7) with 128.
    destruct (Z.ltb_spec d 128).
    + rewrite Z.div_small by lia. reflexivity.
    + assert (d / 128 = 1) by (symmetry; apply (Z.div_unique d 128 1 (d - 128)); lia). rewrite H1. reflexivity.
  - change 127 with (Z.ones 7). rewrite Z.land_ones by lia. reflexivity.
Qed.
Lemma lor_add128 : forall a d, 0 <= a -> Z.lor (a * 128) (d mod 128) = a * 128 + d mod 128.
Proof.
  intros a d H. pose proof (Z.mod_pos_bound d 128 ltac:(lia)).
  assert (L : Z.land (a * 128) (d mod 128) = 0); [|rewrite <- Z.lxor_lor, <- Z.add_nocarry_lxor by exact L; reflexivity].
  change 128 with (2 ^ 7). apply Z.bits_inj'. intros i Hi. rewrite Z.land_spec, Z.bits_0.
  destruct (Z.ltb_spec i 7).
  - rewrite <- Z.shiftl_mul_pow2, Z.shiftl_spec_low by lia. reflexivity.
  - rewrite (Z.mod_pow2_bits_high d 7 i) by lia. apply andb_false_r.
Qed.
(** the do-while loop on octets with continuation bits and a last one *)
Lemma more_ok : forall p num d rest, 0 <= num -> Forall (fun d => 128 <= d < 256) p -> 0 <= d < 128 ->
  val num (p ++ [d]) < 2 ^ 64 -> more_digits num (p ++ d :: rest) = Some (val num (p ++ [d]), rest).
Proof.
  induction p as [|x p IH]; intros num d rest Hn Hp Hd Hv.
  - cbn [app more_digits]. unfold val in *. cbn [app fold_left] in *.
    destruct (land128 d) as [A B]; [lia|]. rewrite A, B.
    destruct (Z.ltb_spec d 128); [|lia]. cbn [negb].
    pose proof (Z.mod_pos_bound d 128). rewrite (Z.mod_small (num * 128)) by (unfold W64; lia).
    rewrite lor_add128 by lia. reflexivity.
  - inversion Hp as [|? ? Hx Hp']; subst. cbn [app more_digits].
    destruct (land128 x) as [A B]; [lia|]. rewrite A, B.
    destruct (Z.ltb_spec x 128); [lia|]. cbn [negb].
    assert (M : num * 128 + x mod 128 <= val num ((x :: p) ++ [d])).
    { unfold val. cbn [app fold_left]. set (y := num * 128 + x mod 128).
      assert (Y : 0 <= y) by (unfold y; pose proof (Z.mod_pos_bound x 128); lia).
      clearbody y. clear - Y. revert y Y. induction (p ++ [d]) as [|z l IL]; intros y Y; cbn; [lia|].
      pose proof (Z.mod_pos_bound z 128 ltac:(lia)). etransitivity; [|apply IL; lia]. lia. }
    pose proof (Z.mod_pos_bound x 128).
    rewrite (Z.mod_small (num * 128)) by (unfold W64; lia). rewrite lor_add128 by lia.
    rewrite IH; [reflexivity|lia|assumption|lia|]. exact Hv.
Qed.
Lemma log_fuel : forall n, 0 <= n -> n < 128 ^ Z.of_nat (S (Z.to_nat (Z.log2 n))).
Proof.
  intros n H. destruct (Z.eq_dec n 0) as [->|N]; [vm_compute; reflexivity|].
  pose proof (Z.log2_spec n ltac:(lia)) as [_ L]. pose proof (Z.log2_nonneg n).
  rewrite Nat2Z.inj_succ, Z2Nat.id by lia.
  eapply Z.lt_le_trans; [exact L|]. apply Z.pow_le_mono_l. lia.
Qed.
(** what the loop body reads from an encoded number *)
Lemma read_sub : forall n rest, 0 <= n < 2 ^ 64 ->
  exists x l, sub_id n ++ rest = x :: l /\ (length l <= length (sub_id n) + length rest - 1)%nat /\
    (if Z.land x 128 =? 0 then Some (x, l) else more_digits (Z.land x 127) l) = Some (n, rest).
Proof.
  intros n rest H. pose proof (log_fuel n ltac:(lia)) as F. unfold sub_id.
  pose proof (val_b128 (S (Z.to_nat (Z.log2 n))) n 0 ltac:(lia) ltac:(auto)) as V.
  rewrite b128_split in *.
  set (p := if n <? 128 then [] else b128 (Z.to_nat (Z.log2 n)) (n / 128) 128) in *.
  assert (P : Forall (fun d => 128 <= d < 256) p).
  { unfold p. destruct (n <? 128); [constructor|]. apply b128_cont. apply Z.div_pos; lia. }
  clearbody p. rewrite Z.add_0_r in *. pose proof (Z.mod_pos_bound n 128 ltac:(lia)) as M.
  destruct p as [|x p].
  - exists (n mod 128), rest. split; [reflexivity|]. split; [cbn; lia|].
    destruct (land128 (n mod 128)) as [A _]; [lia|]. rewrite A.
    destruct (Z.ltb_spec (n mod 128) 128); [|lia]. unfold val in V. cbn in V. rewrite Z.mod_mod in V by lia. rewrite V. reflexivity.
  - inversion P; subst. exists x, (p ++ (n mod 128) :: rest). split; [cbn; rewrite <- app_assoc; reflexivity|].
    split; [cbn [length]; rewrite !app_length; cbn [length]; lia|].
    destruct (land128 x) as [A B]; [lia|]. rewrite A, B. destruct (Z.ltb_spec x 128); [lia|].
    assert (VV : val (x mod 128) (p ++ [n mod 128]) = n).
    { rewrite <- V at 2. reflexivity. }
    rewrite more_ok; [rewrite VV; reflexivity|pose proof (Z.mod_pos_bound x 128); lia|assumption|lia|rewrite VV; lia].
Qed.

(** text of a list of arcs behind the first two *)
Definition tail_text (r : list Z) : list Z := concat (map (fun b => 46 :: numeral b) r).
Lemma sprint_loop_ok : forall r fuel ret size, Forall (fun a => 0 <= a < 2 ^ 64) r ->
  (length (concat (map sub_id r)) <= fuel)%nat -> 1 <= size ->
  sprint_loop fuel (concat (map sub_id r)) ret size =
    Some (if Z.of_nat (length (tail_text r)) <? size then (ret + Z.of_nat (length (tail_text r)), tail_text r)
          else (ENOBUFS, firstn (Z.to_nat (size - 1)) (tail_text r))).
Proof.
  induction r as [|a r IH]; intros fuel ret size Hr Hf Hs.
  - cbn. destruct fuel; cbn [sprint_loop]; destruct (Z.ltb_spec 0 size); try lia; rewrite Z.add_0_r; reflexivity.
  - inversion Hr as [|? ? Ha Hr']; subst. cbn [map concat] in *.
    destruct (read_sub a (concat (map sub_id r)) Ha) as [x [l [E [Hl D]]]].
    rewrite E. rewrite app_length in Hf. destruct fuel as [|fuel].
    { exfalso. assert (length (sub_id a) >= 1)%nat by (unfold sub_id; rewrite b128_split, app_length; cbn; lia). lia. }
    cbn [sprint_loop]. rewrite D. cbv zeta. rewrite dec_numeral.
    set (s := DOT :: numeral a). assert (T : tail_text (a :: r) = s ++ tail_text r) by reflexivity.
    rewrite T, app_length, Nat2Z.inj_add.
    destruct (Z.leb_spec size (Z.of_nat (length s))).
    + destruct (Z.ltb_spec (Z.of_nat (length s) + Z.of_nat (length (tail_text r))) size); [lia|].
      unfold cut. rewrite firstn_app. replace (Z.to_nat (size - 1) - length s)%nat with 0%nat by lia.
      cbn [firstn]. rewrite app_nil_r. reflexivity.
    + rewrite IH; [|assumption| |lia].
      * destruct (Z.ltb_spec (Z.of_nat (length (tail_text r))) (size - Z.of_nat (length s)));
          destruct (Z.ltb_spec (Z.of_nat (length s) + Z.of_nat (length (tail_text r))) size); try lia.
        { rewrite Z.add_assoc. reflexivity. }
        { rewrite firstn_app. rewrite (firstn_all2 s) by lia. 
          replace (Z.to_nat (size - 1) - length s)%nat with (Z.to_nat (size - Z.of_nat (length s) - 1)) by lia. reflexivity. }
      * assert (length (sub_id a ++ concat (map sub_id r)) = length (x :: l)) as LL by congruence.
        rewrite app_length in LL. cbn in LL.
        assert (length (sub_id a) >= 1)%nat by (unfold sub_id; rewrite b128_split, app_length; cbn; lia). lia.
Qed.

(** Full claim: for the encoding of every object identifier, sprint_oid
    writes its dotted notation, as much as fits, and returns its length or
    -ENOBUFS.  Proved: second arc below 40 below every first arc, and arcs
    below 2^64.  Missing: the others, for which it is false (see below). *)
Theorem C96_print_partial : forall x y r bufsize,
  0 <= x <= 2 -> 0 <= y < 40 -> Forall (fun a => 0 <= a < 2 ^ 64) r -> 1 <= bufsize < 2 ^ 31 ->
  let text := dotted (x :: y :: r) in
  sprint_oid (enc_oid (x :: y :: r)) bufsize =
    Some (if Z.of_nat (length text) <? bufsize then (Z.of_nat (length text), text)
          else (-105, firstn (Z.to_nat (bufsize - 1)) text)).
Proof.
  intros x y r size Hx Hy Hr Hs text. unfold text.
  assert (S0 : sub_id (40 * x + y) = [40 * x + y]).
  { unfold sub_id. rewrite b128_split. destruct (Z.ltb_spec (40 * x + y) 128); [|lia].
    cbn [app]. rewrite Z.mod_small, Z.add_0_r by lia. reflexivity. }
  cbn [enc_oid]. rewrite S0. cbn [app sprint_oid].
  destruct (Z.ltb_spec (2 ^ 31 - 1) size); [lia|]. cbv zeta.
  replace ((40 * x + y) / 40) with x by (apply (Z.div_unique _ 40 x y); lia).
  replace ((40 * x + y) mod 40) with y by (apply (Z.mod_unique _ 40 x y); lia).
  rewrite (dec_numeral x), (dec_numeral y). set (s := numeral x ++ DOT :: numeral y).
  assert (T : dotted (x :: y :: r) = s ++ tail_text r).
  { cbn [dotted map concat]. unfold s. rewrite <- app_assoc. reflexivity. }
  clearbody s. rewrite T, app_length, Nat2Z.inj_add.
  destruct (Z.leb_spec size (Z.of_nat (length s))).
  - destruct (Z.ltb_spec (Z.of_nat (length s) + Z.of_nat (length (tail_text r))) size); [lia|].
    unfold cut. rewrite firstn_app. replace (Z.to_nat (size - 1) - length s)%nat with 0%nat by lia.
    cbn [firstn]. rewrite app_nil_r. reflexivity.
  - rewrite sprint_loop_ok; [|assumption|lia|lia].
    destruct (Z.ltb_spec (Z.of_nat (length (tail_text r))) (size - Z.of_nat (length s)));
      destruct (Z.ltb_spec (Z.of_nat (length s) + Z.of_nat (length (tail_text r))) size); try lia.
    + reflexivity.
    + rewrite firstn_app. rewrite (firstn_all2 s) by lia.
      replace (Z.to_nat (size - 1) - length s)%nat with (Z.to_nat (size - Z.of_nat (length s) - 1)) by lia. reflexivity.
Qed.
Print Assumptions C96_print_partial.
Example C96_print_ex : enc_oid [1; 2; 840; 113549; 1; 9; 1] = [42; 134; 72; 134; 247; 13; 1; 9; 1] /\
  sprint_oid (enc_oid [1; 2; 840; 113549]) 20 = Some (14, [49; 46; 50; 46; 56; 52; 48; 46; 49; 49; 51; 53; 52; 57]) /\
  sprint_oid (enc_oid [1; 2; 840; 113549]) 14 = Some (-105, [49; 46; 50; 46; 56; 52; 48; 46; 49; 49; 51; 53; 52]).
Proof. do 2 (split; [vm_compute; reflexivity|]). vm_compute. reflexivity. Qed.

(** Every registered identifier is printed as the header writes it. *)
Theorem C96_registered : forall o bufsize, 0 <= o < OID__NR -> 100 <= bufsize < 2 ^ 31 ->
  sprint_OID o bufsize = Some (Z.of_nat (length (dotted (arcs_of o))), dotted (arcs_of o)).
Proof.
  intros o size Ho Hs. unfold sprint_OID. destruct (Z.leb_spec OID__NR o); [lia|].
  rewrite to_data_enc by assumption.
  assert (A : forallb (fun o => match arcs_of o with
                | x :: y :: r => (0 <=? x) && (x <=? 2) && (0 <=? y) && (y <? 40) &&
                                 forallb (fun a => (0 <=? a) && (a <? 2 ^ 64)) r &&
                                 (Z.of_nat (length (dotted (x :: y :: r))) <? 100)
                | _ => false end) all_oids = true) by (vm_compute; reflexivity).
  rewrite forallb_forall in A. specialize (A o (all_oids_in o Ho)).
  destruct (arcs_of o) as [|x [|y r]]; try discriminate.
  repeat rewrite andb_true_iff in A. destruct A as [[[[[A1 A2] A3] A4] A5] A6].
  apply Z.leb_le in A1, A2, A3. apply Z.ltb_lt in A4, A6.
  rewrite C96_print_partial; [|lia|lia| |lia].
  - destruct (Z.ltb_spec (Z.of_nat (length (dotted (x :: y :: r)))) size); [reflexivity|lia].
  - rewrite forallb_forall in A5. apply Forall_forall. intros a Ha. apply A5 in Ha.
    apply andb_true_iff in Ha as [U V]. apply Z.leb_le in U. apply Z.ltb_lt in V. lia.
Qed.
Print Assumptions C96_registered.

(** 2.40 (and 2.48, 2.100.3, ...) are valid object identifiers but printed as
    3.0, ...; an arc of 2^64 is printed as 0. *)
Theorem C96_print_refuted :
  (exists arcs, oid_ok arcs /\ exists r t, sprint_oid (enc_oid arcs) 100 = Some (r, t) /\ 0 < r /\ t <> dotted arcs /\
     t = dotted [3; 0]) /\
  (exists arcs, oid_ok arcs /\ arcs <> [2; 5] /\ sprint_oid (enc_oid (arcs ++ [2 ^ 64])) 100 = sprint_oid (enc_oid (arcs ++ [0])) 100).
Proof.
  split.
  - exists [2; 40]. split; [cbn; split; [right; lia|constructor]|].
    exists 3, [51; 46; 48]. split; [vm_compute; reflexivity|]. split; [lia|]. split; [vm_compute; discriminate|].
    vm_compute. reflexivity.
  - exists [1; 2]. split; [cbn; split; [left; lia|constructor]|]. split; [discriminate|]. vm_compute. reflexivity.
Qed.
Print Assumptions C96_print_refuted.
(** an input that ends inside a number is refused *)
Theorem C96_truncated : forall x y r a bufsize,
  0 <= x <= 2 -> 0 <= y < 40 -> Forall (fun a => 0 <= a < 2 ^ 64) r -> 128 <= a < 256 -> bufsize < 2 ^ 31 ->
  Z.of_nat (length (dotted (x :: y :: r))) < bufsize ->
  exists t, sprint_oid (enc_oid (x :: y :: r) ++ [a]) bufsize = Some (-74, t).
Proof.
  intros x y r a size Hx Hy Hr Ha Hs Ht.
  assert (S0 : sub_id (40 * x + y) = [40 * x + y]).
  { unfold sub_id. rewrite b128_split. destruct (Z.ltb_spec (40 * x + y) 128); [|lia].
    cbn [app]. rewrite Z.mod_small, Z.add_0_r by lia. reflexivity. }
  cbn [enc_oid]. rewrite S0. cbn [app sprint_oid].
  destruct (Z.ltb_spec (2 ^ 31 - 1) size); [lia|]. cbv zeta.
  replace ((40 * x + y) / 40) with x by (apply (Z.div_unique _ 40 x y); lia).
  replace ((40 * x + y) mod 40) with y by (apply (Z.mod_unique _ 40 x y); lia).
  rewrite (dec_numeral x), (dec_numeral y). set (s := numeral x ++ DOT :: numeral y).
  assert (T : dotted (x :: y :: r) = s ++ tail_text r).
  { cbn [dotted map concat]. unfold s. rewrite <- app_assoc. reflexivity. }
  rewrite T, app_length, Nat2Z.inj_add in Ht.
  destruct (Z.leb_spec size (Z.of_nat (length s))); [lia|].
  assert (G : forall r fuel ret size, Forall (fun a => 0 <= a < 2 ^ 64) r ->
    (length (concat (map sub_id r) ++ [a]) <= fuel)%nat -> Z.of_nat (length (tail_text r)) < size ->
    exists t, sprint_loop fuel (concat (map sub_id r) ++ [a]) ret size = Some (-74, t)).
  { clear - Ha. induction r as [|b r IH]; intros fuel ret size Hr Hf Hs.
    - cbn [map concat app] in *. destruct fuel; [cbn in Hf; lia|]. cbn [sprint_loop].
      destruct (land128 a) as [A B]; [lia|]. rewrite A. destruct (Z.ltb_spec a 128); [lia|].
      cbn [more_digits]. eauto.
    - inversion Hr as [|? ? Hb Hr']; subst. cbn [map concat] in *. rewrite <- app_assoc in *.
      destruct (read_sub b (concat (map sub_id r) ++ [a]) Hb) as [x [l [E [Hl D]]]].
      rewrite E in Hf; rewrite E. destruct fuel as [|fuel]; [cbn in Hf; lia|]. cbn [sprint_loop]. rewrite D. cbv zeta.
      rewrite dec_numeral. set (s := DOT :: numeral b) in *.
      assert (T : tail_text (b :: r) = s ++ tail_text r) by reflexivity.
      rewrite T, app_length, Nat2Z.inj_add in Hs.
      destruct (Z.leb_spec size (Z.of_nat (length s))); [lia|].
      destruct (IH fuel (ret + Z.of_nat (length s)) (size - Z.of_nat (length s))) as [t Et]; [assumption| |lia|].
      + assert (LL : length (sub_id b ++ concat (map sub_id r) ++ [a]) = length (x :: l)) by congruence.
        rewrite app_length in LL. cbn [length] in LL, Hf.
        assert (length (sub_id b) >= 1)%nat by (unfold sub_id; rewrite b128_split, app_length; cbn; lia). lia.
      + rewrite Et. eauto. }
  destruct (G r (length (concat (map sub_id r) ++ [a])) (Z.of_nat (length s)) (size - Z.of_nat (length s))) as [t E];
    [assumption|lia|lia|].
  rewrite E. eauto.
Qed.
Print Assumptions C96_truncated.
Example C96_truncated_ex : sprint_oid [42; 134; 72; 134] 100 = Some (-74, [49; 46; 50; 46; 56; 52; 48; 40; 98; 97; 100; 41]).
Proof. vm_compute. reflexivity. Qed.
