From Verif Require Import Bytes Words ZUtil UtilModel AesProof.

(** * memcmp *)
Lemma nn0 : forall r, bool_not_not r = 0 <-> r = 0.
Proof. intros r. unfold bool_not_not. destruct (Z.eqb_spec r 0); lia. Qed.
Lemma nn01 : forall r, bool_not_not r = 0 \/ bool_not_not r = 1.
Proof. intros r. unfold bool_not_not. destruct (r =? 0); auto. Qed.
Lemma or_xor8_spec : forall n s1 s2 ret, (n <= length s1)%nat -> (n <= length s2)%nat ->
  or_xor8 n s1 s2 ret = 0 <-> ret = 0 /\ firstn n s1 = firstn n s2.
Proof.
  induction n as [|n IH]; intros s1 s2 ret H1 H2; [cbn; tauto|].
  destruct s1 as [|x s1]; cbn [length] in H1; [lia|]. destruct s2 as [|y s2]; cbn [length] in H2; [lia|].
  cbn [or_xor8 firstn]. rewrite IH by lia. rewrite Z.lor_eq_0_iff, Z.lxor_eq_0_iff. split.
  - intros [[A B] C]. subst. split; congruence.
  - intros [A B]. injection B as -> ->. auto.
Qed.
Lemma memcmp8_spec : forall s1 s2 n, (n <= length s1)%nat -> (n <= length s2)%nat ->
  memcmp_secure_8 s1 s2 n = 0 <-> firstn n s1 = firstn n s2.
Proof. intros. unfold memcmp_secure_8. rewrite nn0, or_xor8_spec by auto. tauto. Qed.
Lemma firstn_split : forall (A : Type) n m (l : list A), firstn (n + m) l = firstn n l ++ firstn m (skipn n l).
Proof. intros A n. induction n; intros m [|x l]; cbn; rewrite ?firstn_nil; auto. f_equal. apply IHn. Qed.
Lemma firstn_eq_split : forall n m (a b : list Z), (n <= length a)%nat -> (n <= length b)%nat ->
  firstn (n + m) a = firstn (n + m) b <-> firstn n a = firstn n b /\ firstn m (skipn n a) = firstn m (skipn n b).
Proof.
  intros n m a b Ha Hb. rewrite !firstn_split. split.
  - intros H. apply app_inj_1 in H; [exact H|]. rewrite !firstn_length. lia.
  - intros [-> ->]. reflexivity.
Qed.
Lemma words_spec : forall w k s1 s2 ret, bytes s1 -> bytes s2 -> (w * k <= length s1)%nat -> (w * k <= length s2)%nat ->
  let '(a, b, r) := or_xor_words w k s1 s2 ret in
  a = skipn (w * k) s1 /\ b = skipn (w * k) s2 /\ (r = 0 <-> ret = 0 /\ firstn (w * k) s1 = firstn (w * k) s2).
Proof.
  intros w. induction k as [|k IH]; intros s1 s2 ret B1 B2 L1 L2; cbn [or_xor_words].
  - rewrite Nat.mul_0_r. cbn. tauto.
  - specialize (IH (skipn w s1) (skipn w s2) (Z.lor ret (Z.lxor (le_val (firstn w s1)) (le_val (firstn w s2))))
      (bytes_skipn _ _ B1) (bytes_skipn _ _ B2)).
    destruct (or_xor_words w k _ _ _) as [[a b] r]. rewrite !skipn_length in IH.
    destruct IH as (IA&IB&IR); [nia|nia|]. rewrite !skipn_skipn' in IA, IB. replace (w * S k)%nat with (w + w * k)%nat by lia.
    split; [rewrite IA; f_equal; lia|]. split; [rewrite IB; f_equal; lia|].
    rewrite IR, firstn_eq_split by nia. rewrite Z.lor_eq_0_iff, Z.lxor_eq_0_iff.
    assert (E : le_val (firstn w s1) = le_val (firstn w s2) <-> firstn w s1 = firstn w s2).
    { split; [|intros ->; reflexivity]. apply le_val_inj; [apply bytes_firstn, B1|apply bytes_firstn, B2|].
      rewrite !firstn_length. nia. }
    tauto.
Qed.
Lemma iters_ge_le : forall n w, (0 < w)%nat -> (w * iters_ge n w <= n)%nat.
Proof. intros. unfold iters_ge. apply Nat.mul_div_le. lia. Qed.
Lemma iters_gt_le : forall n w, (0 < w)%nat -> (w * iters_gt n w <= n)%nat.
Proof. intros. unfold iters_gt. pose proof (Nat.mul_div_le (n - 1) w). lia. Qed.
(** the common shape of the word loops *)
Lemma loop_spec : forall w k n s1 s2 (g : list Z -> list Z -> Z), bytes s1 -> bytes s2 ->
  (n <= length s1)%nat -> (n <= length s2)%nat -> (w * k <= n)%nat ->
  (forall a b, bytes a -> bytes b -> (n - w * k <= length a)%nat -> (n - w * k <= length b)%nat ->
     g a b = 0 <-> firstn (n - w * k) a = firstn (n - w * k) b) ->
  (let '(a, b, r) := or_xor_words w k s1 s2 0 in bool_not_not (Z.lor r (g a b))) = 0 <-> firstn n s1 = firstn n s2.
Proof.
  intros w k n s1 s2 g B1 B2 L1 L2 Hk Hg. pose proof (words_spec w k s1 s2 0 B1 B2 ltac:(lia) ltac:(lia)) as W.
  destruct (or_xor_words w k s1 s2 0) as [[a b] r]. destruct W as (->&->&WR).
  rewrite nn0, Z.lor_eq_0_iff, WR. rewrite Hg by (rewrite ?skipn_length; try apply bytes_skipn; auto; lia).
  replace n with (w * k + (n - w * k))%nat at 3 4 by lia. rewrite firstn_eq_split by lia. tauto.
Qed.
Lemma memcmp32a_spec : forall s1 s2 n, bytes s1 -> bytes s2 -> (n <= length s1)%nat -> (n <= length s2)%nat ->
  memcmp_secure_32_aligned s1 s2 n = 0 <-> firstn n s1 = firstn n s2.
Proof.
  intros. unfold memcmp_secure_32_aligned.
  apply (loop_spec 4 (iters_ge n 4) n s1 s2 (fun a b => memcmp_secure_8 a b (n - 4 * iters_ge n 4))); auto.
  - apply iters_ge_le. lia.
  - intros. apply memcmp8_spec; auto.
Qed.
Lemma memcmp32_spec : forall p1 s1 p2 s2 n, bytes s1 -> bytes s2 -> (n <= length s1)%nat -> (n <= length s2)%nat ->
  memcmp_secure_32 p1 s1 p2 s2 n = 0 <-> firstn n s1 = firstn n s2.
Proof.
  intros. unfold memcmp_secure_32. destruct (aligned p1 3 && aligned p2 3); [apply memcmp32a_spec; auto|].
  apply (loop_spec 4 (iters_gt n 4) n s1 s2 (fun a b => memcmp_secure_8 a b (n - 4 * iters_gt n 4))); auto.
  - apply iters_gt_le. lia.
  - intros. apply memcmp8_spec; auto.
Qed.
Lemma memcmp64a_spec : forall s1 s2 n, bytes s1 -> bytes s2 -> (n <= length s1)%nat -> (n <= length s2)%nat ->
  memcmp_secure_64_aligned s1 s2 n = 0 <-> firstn n s1 = firstn n s2.
Proof.
  intros. unfold memcmp_secure_64_aligned.
  apply (loop_spec 8 (iters_ge n 8) n s1 s2 (fun a b => memcmp_secure_32_aligned a b (n - 8 * iters_ge n 8))); auto.
  - apply iters_ge_le. lia.
  - intros. apply memcmp32a_spec; auto.
Qed.
Lemma memcmp64_spec : forall p1 s1 p2 s2 n, bytes s1 -> bytes s2 -> (n <= length s1)%nat -> (n <= length s2)%nat ->
  memcmp_secure_64 p1 s1 p2 s2 n = 0 <-> firstn n s1 = firstn n s2.
Proof.
  intros. unfold memcmp_secure_64. destruct (aligned p1 7 && aligned p2 7); [apply memcmp64a_spec; auto|].
  apply (loop_spec 8 (iters_gt n 8) n s1 s2
    (fun a b => memcmp_secure_32 (p1 + Z.of_nat (8 * iters_gt n 8)) a (p2 + Z.of_nat (8 * iters_gt n 8)) b (n - 8 * iters_gt n 8))); auto.
  - apply iters_gt_le. lia.
  - intros. apply memcmp32_spec; auto.
Qed.
Lemma loop01 : forall w k s1 s2 (g : list Z -> list Z -> Z),
  let x := (let '(a, b, r) := or_xor_words w k s1 s2 0 in bool_not_not (Z.lor r (g a b))) in x = 0 \/ x = 1.
Proof. intros. cbv zeta. destruct (or_xor_words w k s1 s2 0) as [[a b] r]. apply nn01. Qed.
Lemma memcmp64_01 : forall p1 s1 p2 s2 n, memcmp_secure_64 p1 s1 p2 s2 n = 0 \/ memcmp_secure_64 p1 s1 p2 s2 n = 1.
Proof.
  intros. unfold memcmp_secure_64, memcmp_secure_64_aligned. destruct (aligned p1 7 && aligned p2 7); apply loop01.
Qed.
Lemma memcmp_spec : forall p1 s1 p2 s2, bytes s1 -> bytes s2 ->
  (lc_memcmp_secure p1 s1 p2 s2 = 0 <-> s1 = s2) /\ (lc_memcmp_secure p1 s1 p2 s2 = 0 \/ lc_memcmp_secure p1 s1 p2 s2 = 1).
Proof.
  intros p1 s1 p2 s2 B1 B2. unfold lc_memcmp_secure. destruct (Nat.eqb_spec (length s1) (length s2)) as [E|E].
  - rewrite Z.lor_0_l. split; [|apply memcmp64_01]. rewrite memcmp64_spec by (auto; lia). rewrite firstn_all, E, firstn_all. tauto.
  - split.
    + rewrite Z.lor_eq_0_iff. split; [lia|]. intros ->. congruence.
    + right. destruct (memcmp64_01 p1 s1 p2 s2 (if (length s2 <? length s1)%nat then length s2 else length s1)) as [-> | ->]; reflexivity.
Qed.

(** * Hex *)
Definition hexpair (u : bool) (b : Z) : list Z := [hex_char (b / 16) u; hex_char (b mod 16) u].
Lemma store_ok : forall b i v, (i < length b)%nat -> store b i v = Some (upd b i v).
Proof. intros b i v H. unfold store. destruct (Nat.ltb_spec i (length b)); [reflexivity|lia]. Qed.
Lemma upd_mid : forall pre x suf v, upd (pre ++ x :: suf) (length pre) v = pre ++ v :: suf.
Proof. induction pre as [|p pre IH]; intros; cbn; [reflexivity|]. f_equal. apply IH. Qed.
Lemma nibbles : forall b, byte b -> Z.shiftr b 4 = b / 16 /\ Z.land b 15 = b mod 16.
Proof.
  intros b H. split; [apply Z.shiftr_div_pow2; lia|]. change 15 with (Z.ones 4). rewrite Z.land_ones by lia. reflexivity.
Qed.
Lemma b2h_spec : forall k u bin pre hex, bytes bin -> (k <= length bin)%nat -> (2 * k <= length hex)%nat ->
  Nat.Even (length pre) ->
  b2h_loop k bin (pre ++ hex) (length pre / 2) u = Some (pre ++ flat_map (hexpair u) (firstn k bin) ++ skipn (2 * k) hex).
Proof.
  induction k as [|k IH]; intros u bin pre hex B L1 L2 Ev; cbn [b2h_loop]; [reflexivity|].
  destruct bin as [|b bin]; [cbn in L1; lia|]. destruct hex as [|x [|y hex]]; cbn [length] in L2; try lia.
  cbn [length] in L1. inversion B as [|? ? Hb B']; subst. destruct (nibbles b Hb) as [-> ->].
  destruct Ev as [m Em]. assert (E2 : (2 * (length pre / 2))%nat = length pre).
  { rewrite Em, (Nat.mul_comm 2 m), Nat.div_mul by lia. lia. }
  rewrite E2. rewrite store_ok by (rewrite app_length; cbn [length]; lia). rewrite upd_mid.
  replace (length pre + 1)%nat with (length (pre ++ [hex_char (b / 16) u])) by (rewrite app_length; reflexivity).
  change (pre ++ hex_char (b / 16) u :: y :: hex) with (pre ++ [hex_char (b / 16) u] ++ y :: hex). rewrite app_assoc.
  rewrite store_ok by (rewrite (app_length (pre ++ _)); cbn [length]; lia). rewrite upd_mid.
  set (pre' := pre ++ [hex_char (b / 16) u; hex_char (b mod 16) u]).
  replace ((pre ++ [hex_char (b / 16) u]) ++ hex_char (b mod 16) u :: hex) with (pre' ++ hex)
    by (unfold pre'; rewrite <- !app_assoc; reflexivity).
  assert (LP : length pre' = (length pre + 2)%nat) by (unfold pre'; rewrite app_length; reflexivity).
  replace (S (length pre / 2)) with (length pre' / 2)%nat.
  2:{ rewrite LP. replace (length pre + 2)%nat with (length pre + 1 * 2)%nat by lia. rewrite Nat.div_add by lia. lia. }
  rewrite IH; auto; [|lia|lia|exists (S m); lia].
  unfold pre'. cbn [firstn flat_map hexpair app]. rewrite <- !app_assoc. cbn [app].
  replace (2 * S k)%nat with (S (S (2 * k))) by lia. reflexivity.
Qed.
Lemma bin2hex_spec : forall bin hex u, bytes bin ->
  let k := Nat.min (length bin) (length hex / 2) in
  bin2hex bin hex u = Some (flat_map (hexpair u) (firstn k bin) ++ skipn (2 * k) hex).
Proof.
  intros bin hex u B. cbv zeta. unfold bin2hex.
  assert (K : (if (length hex / 2 <? length bin)%nat then (length hex / 2)%nat else length bin) = Nat.min (length bin) (length hex / 2)).
  { destruct (Nat.ltb_spec (length hex / 2) (length bin)); lia. }
  rewrite K. pose proof (Nat.mul_div_le (length hex) 2).
  apply (b2h_spec _ u bin [] hex); auto; [lia|lia|exists 0%nat; reflexivity].
Qed.
Lemma bin_char_lt : forall c, 0 <= bin_char c < 16.
Proof.
  intros c. unfold bin_char. destruct (Z.leb_spec 48 c), (Z.leb_spec c 57), (Z.leb_spec 65 c), (Z.leb_spec c 70), (Z.leb_spec 97 c), (Z.leb_spec c 102); cbn [andb]; lia.
Qed.
Definition hexval (h l : Z) : Z := 16 * bin_char h + bin_char l.
Lemma hexval_eq : forall h l, Z.lor (u8 (Z.shiftl (bin_char h) 4)) (bin_char l) = hexval h l.
Proof.
  intros h l. pose proof (bin_char_lt h). pose proof (bin_char_lt l). rewrite Z.shiftl_mul_pow2 by lia.
  unfold u8. rewrite Z.mod_small by (change (2 ^ 4) with 16; lia). unfold hexval.
  rewrite lor_mul_pow2 by (change (2 ^ 4) with 16; lia). change (2 ^ 4) with 16. lia.
Qed.
Fixpoint unhex (hex : list Z) : list Z :=
  match hex with h :: l :: r => hexval h l :: unhex r | _ => [] end.
Lemma hex_loop_spec : forall k hex pre bin, (2 * k <= length hex)%nat -> (k <= length bin)%nat ->
  hex_loop k hex (pre ++ bin) (length pre) = Some (pre ++ firstn k (unhex hex) ++ skipn k bin).
Proof.
  induction k as [|k IH]; intros hex pre bin L1 L2; cbn [hex_loop]; [reflexivity|].
  destruct hex as [|h [|l hex]]; cbn [length] in L1; try lia. destruct bin as [|b bin]; cbn [length] in L2; [lia|].
  rewrite store_ok by (rewrite app_length; cbn; lia). rewrite upd_mid, hexval_eq.
  change (pre ++ hexval h l :: bin) with (pre ++ [hexval h l] ++ bin). rewrite app_assoc.
  replace (S (length pre)) with (length (pre ++ [hexval h l])) by (rewrite app_length; cbn; lia).
  rewrite IH by lia. cbn [unhex firstn skipn]. rewrite <- app_assoc. reflexivity.
Qed.
Lemma hex_loop_oob : forall k hex pre bin, (2 * k <= length hex)%nat -> (length bin < k)%nat ->
  hex_loop k hex (pre ++ bin) (length pre) = None.
Proof.
  induction k as [|k IH]; intros hex pre bin L1 L2; cbn [hex_loop]; [lia|].
  destruct hex as [|h [|l hex]]; cbn [length] in L1; try lia. destruct bin as [|b bin].
  - unfold store. rewrite app_nil_r, Nat.ltb_irrefl. reflexivity.
  - cbn [length] in L2. rewrite store_ok by (rewrite app_length; cbn; lia). rewrite upd_mid.
    set (v := Z.lor _ _). change (pre ++ v :: bin) with (pre ++ [v] ++ bin). rewrite app_assoc.
    replace (S (length pre)) with (length (pre ++ [v])) by (rewrite app_length; cbn; lia). apply IH; lia.
Qed.
Lemma hex2bin_even : forall hex bin, (length hex mod 2 = 0)%nat ->
  let k := Nat.min (length bin) (length hex / 2) in
  hex2bin hex bin = Some (firstn k (unhex hex) ++ skipn k bin).
Proof.
  intros hex bin E. cbv zeta. unfold hex2bin.
  assert (K : (if (length hex / 2 <? length bin)%nat then (length hex / 2)%nat else length bin) = Nat.min (length bin) (length hex / 2)).
  { destruct (Nat.ltb_spec (length hex / 2) (length bin)); lia. }
  rewrite K, E. pose proof (Nat.mul_div_le (length hex) 2). cbn [Nat.eqb].
  apply (hex_loop_spec _ hex [] bin); lia.
Qed.
Lemma hex2bin_odd : forall h hex bin, (length (h :: hex) mod 2 = 1)%nat ->
  hex2bin (h :: hex) bin =
  if (length (h :: hex) / 2 <? length bin)%nat
  then Some (bin_char h :: unhex hex ++ skipn (S (length hex / 2)) bin) else None.
Proof.
  intros h hex bin E. unfold hex2bin. rewrite E. cbn [Nat.eqb].
  pose proof (Nat.div_mod (length (h :: hex)) 2 ltac:(lia)) as D. rewrite E in D. set (q := (length (h :: hex) / 2)%nat) in *. clearbody q.
  assert (L : length hex = (2 * q)%nat) by (cbn [length] in D; lia).
  assert (Q : (length hex / 2)%nat = q) by (rewrite L, Nat.mul_comm, Nat.div_mul; lia). rewrite Q.
  destruct (Nat.ltb_spec q (length bin)) as [H|H].
  - destruct bin as [|b bin]; [cbn in H; lia|]. rewrite store_ok by (cbn; lia).
    change (upd (b :: bin) 0 (bin_char h)) with ([bin_char h] ++ bin). change 1%nat with (length [bin_char h]).
    cbn [length] in H. rewrite hex_loop_spec by lia. cbn [app skipn]. rewrite firstn_all2; [reflexivity|].
    clear - L. revert hex L. induction q as [|q IH]; intros [|x [|y hex]] L; cbn [unhex length] in *; try lia.
    specialize (IH hex). lia.
  - destruct bin as [|b bin]; [reflexivity|]. rewrite store_ok by (cbn; lia).
    change (upd (b :: bin) 0 (bin_char h)) with ([bin_char h] ++ bin). change 1%nat with (length [bin_char h]).
    apply hex_loop_oob; cbn [length] in *; lia.
Qed.
Lemma hex_char_byte : forall u n, 0 <= n < 16 -> bin_char (hex_char n u) = n.
Proof.
  intros u n H. assert (n = 0 \/ n = 1 \/ n = 2 \/ n = 3 \/ n = 4 \/ n = 5 \/ n = 6 \/ n = 7 \/ n = 8 \/ n = 9 \/ n = 10 \/ n = 11 \/ n = 12 \/ n = 13 \/ n = 14 \/ n = 15) as C by lia.
  destruct u; intuition (subst; reflexivity).
Qed.
Lemma unhex_hex : forall u bin, bytes bin -> unhex (flat_map (hexpair u) bin) = bin.
Proof.
  intros u. induction bin as [|b bin IH]; intros B; [reflexivity|]. inversion B as [|? ? Hb B']; subst. unfold byte in Hb.
  cbn [flat_map hexpair app unhex]. rewrite IH by auto. f_equal. unfold hexval.
  assert (0 <= b / 16 < 16) by (split; [apply Z.div_pos; lia|apply Z.div_lt_upper_bound; lia]).
  pose proof (Z.mod_pos_bound b 16 ltac:(lia)).
  rewrite (hex_char_byte u (b / 16)), (hex_char_byte u (b mod 16)) by assumption.
  pose proof (Z.div_mod b 16 ltac:(lia)). lia.
Qed.
Lemma hexpairs_len : forall u bin, length (flat_map (hexpair u) bin) = (2 * length bin)%nat.
Proof. intros u. induction bin; cbn [flat_map length app hexpair] in *; [reflexivity|]. lia. Qed.

(** * Percent encoding *)
(** RFC 3986 2.1: an octet is kept or becomes '%' HEXDIG HEXDIG (upper case). *)
Definition pct (unres : list Z) (b : Z) : list Z := if memz b unres then [b] else 37 :: hexpair true b.
(** UTF-8 characters by their lead byte; continuation bytes 0x80..0xbf. *)
Definition cont (b : Z) : Prop := 0x80 <= b < 0xc0.
Inductive utf8_char : list Z -> Prop :=
| U1 : forall a, 0 <= a < 0x80 -> utf8_char [a]
| U2 : forall a b, 0xc0 <= a < 0xe0 -> cont b -> utf8_char [a; b]
| U3 : forall a b c, 0xe0 <= a < 0xf0 -> cont b -> cont c -> utf8_char [a; b; c]
| U4 : forall a b c d, 0xf0 <= a < 0xf8 -> cont b -> cont c -> cont d -> utf8_char [a; b; c; d].
Definition ascii (l : list Z) : Prop := Forall (fun b => 0 <= b < 0x80) l.

Lemma charbytes_table : forall b, byte b ->
  charbytes b = if b <? 0x80 then Some 1%nat else if b <? 0xc0 then None else if b <? 0xe0 then Some 2%nat
                else if b <? 0xf0 then Some 3%nat else if b <? 0xf8 then Some 4%nat else None.
Proof.
  assert (A : forallb (fun b => match charbytes b, (if b <? 0x80 then Some 1%nat else if b <? 0xc0 then None else if b <? 0xe0 then Some 2%nat
                else if b <? 0xf0 then Some 3%nat else if b <? 0xf8 then Some 4%nat else None) with
     | Some x, Some y => (x =? y)%nat | None, None => true | _, _ => false end) (zrange 0 256) = true) by (vm_compute; reflexivity).
  intros b H. rewrite forallb_forall in A. specialize (A b).
  destruct (charbytes b), (if b <? 0x80 then _ else _); try reflexivity.
  - f_equal. apply Nat.eqb_eq, A. apply in_map_iff. exists (Z.to_nat b). unfold byte in H. rewrite in_seq. lia.
  - exfalso. enough (false = true) by discriminate. apply A. apply in_map_iff. exists (Z.to_nat b). unfold byte in H. rewrite in_seq. lia.
  - exfalso. enough (false = true) by discriminate. apply A. apply in_map_iff. exists (Z.to_nat b). unfold byte in H. rewrite in_seq. lia.
Qed.
Lemma utf8_lead : forall c, utf8_char c -> exists b r, c = b :: r /\ byte b /\ charbytes b = Some (length c) /\ bytes c.
Proof.
  intros c H. destruct H; unfold cont in *; do 2 eexists; (split; [reflexivity|]); (split; [unfold byte; lia|]);
    (split; [rewrite charbytes_table by (unfold byte; lia); repeat match goal with |- context [?a <? ?b] => destruct (Z.ltb_spec a b); try lia end; reflexivity
            |repeat constructor; unfold byte; lia]).
Qed.
Lemma memz_ascii : forall b l, ascii l -> 0x80 <= b -> memz b l = false.
Proof.
  intros b l H Hb. unfold memz. apply Bool.not_true_is_false. intros E. apply existsb_exists in E. destruct E as (x&Hx&Ex).
  apply Z.eqb_eq in Ex. subst. unfold ascii in H. rewrite Forall_forall in H. specialize (H _ Hx). cbn in H. lia.
Qed.
(** a character that is not kept *)
Lemma put_pct : forall cs pre suf, bytes cs -> (3 * length cs < length suf)%nat ->
  put_char cs false (pre ++ suf) (length pre)
  = Some (pre ++ flat_map (fun b => 37 :: hexpair true b) cs ++ skipn (3 * length cs) suf, (length pre + 3 * length cs)%nat).
Proof.
  induction cs as [|b cs IH]; intros pre suf B L.
  - cbn. rewrite Nat.add_0_r. reflexivity.
  - inversion B as [|? ? Hb B']; subst. cbn [length] in L. cbn [put_char].
    destruct suf as [|x [|y [|z suf]]]; cbn [length] in L; try lia.
    rewrite store_ok by (rewrite app_length; cbn; lia). rewrite upd_mid.
    assert (S1 : skipn (S (length pre)) (pre ++ 37 :: y :: z :: suf) = y :: z :: suf).
    { change (pre ++ 37 :: y :: z :: suf) with (pre ++ [37] ++ y :: z :: suf). rewrite app_assoc.
      replace (S (length pre)) with (length (pre ++ [37])) by (rewrite app_length; cbn; lia).
      rewrite skipn_app, skipn_all, Nat.sub_diag. reflexivity. }
    assert (S2 : firstn (S (length pre)) (pre ++ 37 :: y :: z :: suf) = pre ++ [37]).
    { change (pre ++ 37 :: y :: z :: suf) with (pre ++ [37] ++ y :: z :: suf). rewrite app_assoc.
      replace (S (length pre)) with (length (pre ++ [37])) by (rewrite app_length; cbn; lia).
      rewrite firstn_app, firstn_all, Nat.sub_diag, firstn_O, app_nil_r. reflexivity. }
    rewrite S1, S2. rewrite bin2hex_spec by (constructor; [exact Hb|constructor]).
    replace (Nat.min (length [b]) (length (y :: z :: suf) / 2)) with 1%nat.
    2:{ cbn [length]. change (S (S (length suf))) with (1 * 2 + length suf)%nat. rewrite Nat.div_add_l by lia. lia. }
    cbn [firstn flat_map]. rewrite app_nil_r. change (skipn (2 * 1) (y :: z :: suf)) with suf.
    replace ((pre ++ [37]) ++ hexpair true b ++ suf) with ((pre ++ 37 :: hexpair true b) ++ suf) by (rewrite <- !app_assoc; reflexivity).
    replace (length pre + 3)%nat with (length (pre ++ 37 :: hexpair true b)) by (rewrite app_length; reflexivity).
    rewrite IH by (auto; lia). f_equal. f_equal.
    + replace (3 * length (b :: cs))%nat with (S (S (S (3 * length cs)))) by (cbn [length]; lia).
      cbn [skipn flat_map]. rewrite <- !app_assoc. reflexivity.
    + rewrite app_length. cbn [length hexpair]. lia.
Qed.
Lemma pct_high : forall unres cs, ascii unres -> Forall (fun b => 0x80 <= b) cs ->
  flat_map (fun b => 37 :: hexpair true b) cs = flat_map (pct unres) cs.
Proof.
  intros unres cs HA. induction 1 as [|b cs Hb Hcs IH]; [reflexivity|]. cbn [flat_map]. rewrite IH. f_equal.
  unfold pct. rewrite memz_ascii by auto. reflexivity.
Qed.
Lemma pct_len_char : forall unres c, ascii unres -> utf8_char c ->
  exists b r, c = b :: r /\
  length (flat_map (pct unres) c) = (if (length c =? 1)%nat && memz b unres then length c else length c * 3)%nat.
Proof.
  intros unres c HA H. destruct H; unfold cont in *; do 2 eexists; (split; [reflexivity|]); cbn [flat_map length Nat.eqb andb];
    unfold pct; rewrite ?(memz_ascii _ unres HA) by lia; try reflexivity.
  destruct (memz a unres); reflexivity.
Qed.
Lemma html_loop_spec : forall unres chars, ascii unres -> Forall utf8_char chars ->
  forall f pre suf, (length (concat chars) <= f)%nat -> (length (flat_map (pct unres) (concat chars)) < length suf)%nat ->
  html_loop f unres (concat chars) (pre ++ suf) (length pre)
  = HRet 0 (pre ++ flat_map (pct unres) (concat chars) ++ 0 :: skipn (S (length (flat_map (pct unres) (concat chars)))) suf).
Proof.
  intros unres chars HA HC. induction HC as [|c chars Hc HC IH]; intros f pre suf Hf HL.
  - cbn in HL |- *. destruct f; cbn [html_loop]; (destruct suf as [|x suf]; [cbn in HL; lia|]);
      rewrite store_ok by (rewrite app_length; cbn; lia); rewrite upd_mid; reflexivity.
  - cbn [concat]. cbn [concat] in Hf, HL.
    destruct (utf8_lead c Hc) as (b&r&Ec&Hb&CB&BC). destruct (pct_len_char unres c HA Hc) as (b'&r'&Ec'&LC).
    rewrite Ec in Ec'. injection Ec' as <- <-.
    rewrite flat_map_app, app_length in HL. rewrite app_length in Hf.
    destruct f as [|f]; [rewrite Ec in Hf; cbn in Hf; lia|].
    assert (Hd : exists t, c ++ concat chars = b :: t) by (rewrite Ec; eexists; reflexivity). destruct Hd as [t Hd].
    assert (Step : html_loop (S f) unres (c ++ concat chars) (pre ++ suf) (length pre)
      = html_loop f unres (concat chars) ((pre ++ flat_map (pct unres) c) ++ skipn (length (flat_map (pct unres) c)) suf) (length (pre ++ flat_map (pct unres) c))).
    { rewrite Hd. cbn [html_loop]. rewrite <- Hd, CB. rewrite <- LC.
      rewrite (app_length pre suf). replace (length pre + length suf - length pre)%nat with (length suf) by lia.
      destruct (Nat.leb_spec (length suf) (length (flat_map (pct unres) c))); [lia|].
      destruct (Nat.ltb_spec (length (c ++ concat chars)) (length c)) as [X|X]; [rewrite app_length in X; lia|].
      rewrite firstn_app, firstn_all, Nat.sub_diag, firstn_O, app_nil_r, skipn_app, skipn_all, Nat.sub_diag. cbn [skipn app].
      destruct ((length c =? 1)%nat && memz b unres) eqn:U.
      - apply andb_prop in U. destruct U as [U1 U2]. apply Nat.eqb_eq in U1. rewrite Ec in U1. cbn in U1. destruct r; [|cbn in U1; lia].
        subst c. cbn [put_char]. destruct suf as [|x suf]; [cbn in HL; lia|].
        rewrite store_ok by (rewrite app_length; cbn; lia). rewrite upd_mid. cbn [flat_map]. replace (pct unres b) with [b] by (unfold pct; rewrite U2; reflexivity). cbn [app length skipn].
        rewrite <- app_assoc, app_length. cbn [app length]. rewrite Nat.add_1_r. reflexivity.
      - assert (FM : flat_map (pct unres) c = flat_map (fun b => 37 :: hexpair true b) c).
        { destruct Hc; unfold cont in *.
          - injection Ec as <- <-. cbn in U. cbn [flat_map]. unfold pct. rewrite U. reflexivity.
          - symmetry. apply pct_high; auto. repeat constructor; lia.
          - symmetry. apply pct_high; auto. repeat constructor; lia.
          - symmetry. apply pct_high; auto. repeat constructor; lia. }
        rewrite put_pct by (auto; lia). rewrite <- FM. replace (3 * length c)%nat with (length (flat_map (pct unres) c)) by lia.
        rewrite app_assoc. f_equal. rewrite app_length. reflexivity. }
    rewrite Step. rewrite IH; [|rewrite Ec in Hf; cbn in Hf; lia|rewrite skipn_length; lia].
    f_equal. rewrite flat_map_app, <- !app_assoc. do 3 f_equal. rewrite skipn_skipn', app_length. f_equal. f_equal. lia.
Qed.
Lemma html_count_spec : forall unres chars, ascii unres -> Forall utf8_char chars ->
  forall f req, (length (concat chars) <= f)%nat ->
  html_count f unres (concat chars) req = inr (Some (req + length (flat_map (pct unres) (concat chars)) + 1)%nat).
Proof.
  intros unres chars HA HC. induction HC as [|c chars Hc HC IH]; intros f req Hf.
  - cbn. destruct f; cbn; do 2 f_equal; lia.
  - cbn [concat] in *. destruct (utf8_lead c Hc) as (b&r&Ec&Hb&CB&BC). destruct (pct_len_char unres c HA Hc) as (b'&r'&Ec'&LC).
    rewrite Ec in Ec'. injection Ec' as <- <-. rewrite app_length in Hf.
    destruct f as [|f]; [rewrite Ec in Hf; cbn in Hf; lia|].
    assert (Hd : exists t, c ++ concat chars = b :: t) by (rewrite Ec; eexists; reflexivity). destruct Hd as [t Hd].
    rewrite Hd. cbn [html_count]. rewrite <- Hd, CB, <- LC.
    destruct (Nat.ltb_spec (length (c ++ concat chars)) (length c)) as [X|X]; [rewrite app_length in X; lia|].
    rewrite skipn_app, skipn_all, Nat.sub_diag. cbn [skipn app]. rewrite IH by (rewrite Ec in Hf; cbn in Hf; lia).
    rewrite flat_map_app, app_length. do 2 f_equal. lia.
Qed.

(** * Domain separation *)
Lemma ph_oids_inj : forall p q c c' a b, signature_ph_oids (Some p) c = Some a -> signature_ph_oids (Some q) c' = Some b ->
  length a = 11%nat /\ length b = 11%nat /\ (a = b -> p = q).
Proof.
  assert (N : forall p c a, signature_ph_oids (Some p) c = Some a -> match p with PH_other _ => False | _ =>
     a = nist_hash_oid (match p with PH_sha256 => 1 | PH_sha384 => 2 | PH_sha512 => 3 | PH_sha3_256 => 8 | PH_sha3_384 => 9 | PH_sha3_512 => 10
       | PH_shake128 => 11 | PH_shake256 => 12 | PH_other _ => 0 end) end).
  { intros p c a H. unfold signature_ph_oids in H.
    destruct (c =? 1); [|destruct (c =? 3); [|destruct (c =? 5); [|discriminate]]]; destruct p; cbn in H; try discriminate; injection H as <-; reflexivity. }
  intros p q c c' a b Ha Hb. apply N in Ha. apply N in Hb.
  destruct p; try contradiction; destruct q; try contradiction; subst; (split; [reflexivity|split; [reflexivity|]]); intros E; try reflexivity; discriminate E.
Qed.
