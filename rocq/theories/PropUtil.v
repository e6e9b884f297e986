(** Properties C20 - C22, C62, C63. *)
From Verif Require Import Bytes Words UtilModel UtilProof.

(** * C20 *)
(** [p1], [p2]: any addresses. *)
Theorem C20_memcmp : forall p1 p2 a b, bytes a -> bytes b ->
  (lc_memcmp_secure p1 a p2 b = 0 <-> a = b) /\
  (lc_memcmp_secure p1 a p2 b = 0 \/ lc_memcmp_secure p1 a p2 b = 1).
Proof. intros p1 p2 a b Ha Hb. apply memcmp_spec; auto. Qed.
Print Assumptions C20_memcmp.
(** The four paths: 64-bit aligned, 32-bit aligned, unaligned, mixed; a difference in the last byte. *)
Example C20_paths : map (fun p => lc_memcmp_secure (fst p) (zrange 0 23) (snd p) (zrange 0 22 ++ [99]))
  [(0, 0); (4, 4); (1, 8); (4, 8); (3, 3)] = [1; 1; 1; 1; 1].
Proof. vm_compute. reflexivity. Qed.
Example C20_equal : map (fun p => lc_memcmp_secure (fst p) (zrange 0 23) (snd p) (zrange 0 23))
  [(0, 0); (4, 4); (1, 8); (4, 8); (3, 3)] = [0; 0; 0; 0; 0].
Proof. vm_compute. reflexivity. Qed.

(** * C21 *)
Theorem C21_roundtrip : forall b hexbuf binbuf u, bytes b ->
  length hexbuf = (2 * length b)%nat -> length binbuf = length b ->
  exists h, bin2hex b hexbuf u = Some h /\ length h = length hexbuf /\ hex2bin h binbuf = Some b.
Proof.
  intros b hexbuf binbuf u B LH LB. pose proof (bin2hex_spec b hexbuf u B) as E. cbv zeta in E.
  replace (Nat.min (length b) (length hexbuf / 2)) with (length b) in E.
  2:{ rewrite LH, Nat.mul_comm, Nat.div_mul by lia. lia. }
  rewrite firstn_all, skipn_all2, app_nil_r in E by lia. eexists. split; [exact E|].
  split; [rewrite hexpairs_len; lia|]. rewrite hex2bin_even.
  - rewrite hexpairs_len. replace (2 * length b)%nat with (length b * 2)%nat by lia. rewrite Nat.div_mul by lia.
    rewrite LB, Nat.min_id, unhex_hex by auto. rewrite firstn_all, skipn_all2 by lia. rewrite app_nil_r. reflexivity.
  - rewrite hexpairs_len, Nat.mul_comm. apply Nat.mod_mul. lia.
Qed.
Print Assumptions C21_roundtrip.
Example C21_example : bin2hex [0xde; 0xad; 0x07] (zeros 6) false = Some [100; 101; 97; 100; 48; 55].
Proof. vm_compute. reflexivity. Qed.
(** bin2hex stays inside its buffer whatever its length; so does the allocating hex2bin. *)
Theorem C21_bin2hex_bounds : forall b hexbuf u, bytes b -> exists h, bin2hex b hexbuf u = Some h /\ length h = length hexbuf.
Proof.
  intros b hexbuf u B. pose proof (bin2hex_spec b hexbuf u B) as E. cbv zeta in E. eexists. split; [exact E|].
  rewrite app_length, hexpairs_len, firstn_length, skipn_length. pose proof (Nat.mul_div_le (length hexbuf) 2). lia.
Qed.
Print Assumptions C21_bin2hex_bounds.
Theorem C21_alloc_bounds : forall hex, hex <> [] -> exists b, hex2bin_alloc hex = inr (Some b).
Proof.
  intros hex N. unfold hex2bin_alloc. destruct hex as [|h hex]; [congruence|]. cbn [length Nat.eqb].
  set (L := length (h :: hex)). change (S (length hex)) with L.
  destruct (Nat.eq_dec (L mod 2) 1) as [E|E].
  - rewrite hex2bin_odd by exact E. rewrite length_zeros. fold L.
    assert (L / 2 < (L + 1) / 2)%nat.
    { pose proof (Nat.div_mod L 2 ltac:(lia)). rewrite E in H. replace (L + 1)%nat with ((L / 2 + 1) * 2)%nat by lia.
      rewrite Nat.div_mul by lia. lia. }
    destruct (Nat.ltb_spec (L / 2) ((L + 1) / 2)); [|lia]. eexists. reflexivity.
  - rewrite hex2bin_even; [eexists; reflexivity|]. fold L. pose proof (Nat.mod_upper_bound L 2). lia.
Qed.
Print Assumptions C21_alloc_bounds.
(** Exactly when hex2bin stays in bounds: an even number of digits, or room for one more byte than half of them. *)
Theorem C21_hex2bin_bounds : forall hex binbuf,
  (exists b, hex2bin hex binbuf = Some b) <-> (length hex mod 2 = 0 \/ length hex / 2 < length binbuf)%nat.
Proof.
  intros hex bin. destruct (Nat.eq_dec (length hex mod 2) 1) as [E|E].
  - destruct hex as [|h hex]; [discriminate|]. rewrite hex2bin_odd by exact E.
    destruct (Nat.ltb_spec (length (h :: hex) / 2) (length bin)).
    + split; [auto|intros _; eexists; reflexivity].
    + split; [intros [b X]; discriminate|intros [X|X]; lia].
  - pose proof (Nat.mod_upper_bound (length hex) 2 ltac:(lia)). rewrite hex2bin_even by lia. split; [intros _; left; lia|eexists; reflexivity].
Qed.
Print Assumptions C21_hex2bin_bounds.
(** "hex2bin writes at most binlen bytes" is false: "123" into one byte writes two. *)
Theorem C21_refuted : exists hex binbuf, length hex = 3%nat /\ length binbuf = 1%nat /\ hex2bin hex binbuf = None.
Proof. exists [49; 50; 51], [0]. repeat split. Qed.
Print Assumptions C21_refuted.

(** * C22 *)
(** Two calls that succeed and feed the same bytes to the hash (in front of any messages) have the same pre-hash
    mode, algorithm, context and message; also across NIST categories. *)
Theorem C22_injective : forall p p' ctx ctx' m m' cat cat' h,
  signature_domain_separation false p ctx m cat false = (0, h) ->
  signature_domain_separation false p' ctx' m' cat' false = (0, h) ->
  p = p' /\ ctx = ctx' /\ m = m'.
Proof.
  intros p p' ctx ctx' m m' cat cat' h H1 H2. unfold signature_domain_separation in *.
  destruct (Nat.ltb_spec 255 (length ctx)) as [|L]; [discriminate|]. destruct (Nat.ltb_spec 255 (length ctx')) as [|L']; [discriminate|].
  destruct (signature_ph_oids p cat) as [o|] eqn:O; [|discriminate]. destruct (signature_ph_oids p' cat') as [o'|] eqn:O'; [|discriminate].
  injection H1 as <-. injection H2 as E0 E1 E2. unfold u8 in E1. rewrite !Z.mod_small in E1 by lia.
  rewrite <- !app_assoc in E2. apply app_inj_1 in E2; [|lia]. destruct E2 as [EC E2].
  destruct p as [p|], p' as [p'|]; try discriminate.
  - destruct (ph_oids_inj p p' cat cat' o o' O O') as (X&Y&Z). apply app_inj_1 in E2; [|lia]. destruct E2 as [-> ->].
    rewrite Z by reflexivity. auto.
  - injection O as <-. injection O' as <-. auto.
Qed.
Print Assumptions C22_injective.
Theorem C22_long_context_refused : forall p ctx m cat composite, (255 < length ctx)%nat ->
  signature_domain_separation false p ctx m cat composite = (- EINVAL, []).
Proof.
  intros p ctx m cat composite H. unfold signature_domain_separation.
  destruct (Nat.ltb_spec 255 (length ctx)); [reflexivity|lia].
Qed.
Print Assumptions C22_long_context_refused.
(** Which pre-hash algorithms are accepted, by category; all others are refused. *)
Theorem C22_accepted : forall p ctx m cat, (length ctx <= 255)%nat ->
  let r := fst (signature_domain_separation false (Some p) ctx m cat false) in
  (r = 0 \/ r = - EOPNOTSUPP) /\
  (r = 0 <->
   (cat = 1 /\ In p [PH_sha256; PH_sha3_256; PH_shake128; PH_sha384; PH_sha3_384; PH_sha512; PH_sha3_512; PH_shake256]) \/
   (cat = 3 /\ In p [PH_sha384; PH_sha3_384; PH_sha512; PH_sha3_512; PH_shake256]) \/
   (cat = 5 /\ In p [PH_sha512; PH_sha3_512; PH_shake256])).
Proof.
  intros p ctx m cat L. cbv zeta. unfold signature_domain_separation. destruct (Nat.ltb_spec 255 (length ctx)); [lia|].
  unfold signature_ph_oids.
  destruct (Z.eqb_spec cat 1) as [->|N1]; [|destruct (Z.eqb_spec cat 3) as [->|N3]; [|destruct (Z.eqb_spec cat 5) as [->|N5]]];
    destruct p; cbn [ph_case1 ph_case3 ph_case5 fst In]; (split; [tauto|]); split; intros X; try tauto; try discriminate;
    try (unfold EOPNOTSUPP in X; discriminate); intuition (try discriminate; try lia).
Qed.
Print Assumptions C22_accepted.
Example C22_example : signature_domain_separation false (Some PH_sha512) [7; 8] [1; 2; 3] 5 false
  = (0, [1; 2; 7; 8; 6; 9; 0x60; 0x86; 0x48; 1; 0x65; 3; 4; 2; 3; 1; 2; 3]).
Proof. reflexivity. Qed.

(** * C62: with the composite signature. Full statement: as C22_injective with composite = true. It is false, the
    error for an unsupported pre-hash algorithm is overwritten by the composite step. *)
Theorem C62_refuted : exists p p' ctx m h, p <> p' /\
  signature_domain_separation false (Some p) ctx m 5 true = (0, h) /\
  signature_domain_separation false (Some p') ctx m 5 true = (0, h) /\
  fst (signature_domain_separation false (Some p) ctx m 5 false) = - EOPNOTSUPP.
Proof.
  exists PH_sha256, PH_shake128, [], [1; 2; 3], (snd (signature_domain_separation false (Some PH_sha256) [] [1; 2; 3] 5 true)).
  split; [discriminate|]. repeat split.
Qed.
Print Assumptions C62_refuted.
(** It holds for the supported algorithms. *)
Theorem C62_injective_partial : forall p p' ctx ctx' m m' cat h,
  (forall q, p = Some q -> signature_ph_oids p cat <> None) -> (forall q, p' = Some q -> signature_ph_oids p' cat <> None) ->
  signature_domain_separation false p ctx m cat true = (0, h) ->
  signature_domain_separation false p' ctx' m' cat true = (0, h) ->
  p = p' /\ ctx = ctx' /\ m = m'.
Proof.
  intros p p' ctx ctx' m m' cat h S S' H1 H2.
  assert (A : forall p ctx m, (forall q, p = Some q -> signature_ph_oids p cat <> None) ->
    signature_domain_separation false p ctx m cat true = (0, h) ->
    (length ctx <= 255)%nat /\
    signature_domain_separation false p ctx (snd (composite_signature_domain_separation ctx cat) ++ m) cat false = (0, h)).
  { clear. intros p ctx m S H. unfold signature_domain_separation in *.
    destruct (Nat.ltb_spec 255 (length ctx)) as [|L]; [discriminate|]. split; [lia|].
    destruct (signature_ph_oids p cat) as [o|] eqn:O.
    - destruct (composite_signature_domain_separation ctx cat) as [r x]. injection H as <- <-. cbn [snd]. rewrite <- !app_assoc. reflexivity.
    - destruct p as [q|]; [exfalso; apply (S q); reflexivity|]. discriminate. }
  apply A in H1; auto. apply A in H2; auto. destruct H1 as [L1 H1], H2 as [L2 H2].
  destruct (C22_injective _ _ _ _ _ _ _ _ _ H1 H2) as (->&->&E). apply app_inv_head in E. auto.
Qed.
Print Assumptions C62_injective_partial.
Example C62_example : signature_ph_oids (Some PH_sha512) 5 <> None.
Proof. discriminate. Qed.

(** * C63: percent encoding. Full statement: for every string and every buffer, bin2hex_html (and the allocating
    form) returns without leaving str or html; on success html holds the RFC 3986 percent encoding of str, a
    NUL, and the old rest. *)
Theorem C63_html_partial : forall chars buf, Forall utf8_char chars ->
  (length (flat_map (pct unreserved) (concat chars)) < length buf)%nat ->
  let e := flat_map (pct unreserved) (concat chars) in
  bin2hex_html (concat chars) buf = HRet 0 (e ++ [0] ++ skipn (S (length e)) buf).
Proof.
  intros chars buf HC HL. cbv zeta. unfold bin2hex_html.
  apply (html_loop_spec unreserved chars) with (pre := []) (suf := buf); auto.
  apply Forall_forall. intros x Hx. vm_compute in Hx. repeat (destruct Hx as [<-|Hx]; [lia|]). contradiction.
Qed.
Print Assumptions C63_html_partial.
Lemma unreserved_ascii : ascii unreserved.
Proof. apply Forall_forall. intros x Hx. vm_compute in Hx. repeat (destruct Hx as [<-|Hx]; [lia|]). contradiction. Qed.
(** The allocating form succeeds on every UTF-8 string and returns exactly the encoding and its NUL. *)
Theorem C63_html_alloc_partial : forall chars, Forall utf8_char chars -> concat chars <> [] ->
  bin2hex_html_alloc (concat chars) = HRet 0 (flat_map (pct unreserved) (concat chars) ++ [0]).
Proof.
  intros chars HC N. unfold bin2hex_html_alloc.
  destruct (Nat.eqb_spec (length (concat chars)) 0) as [E|_]; [apply length_zero_iff_nil in E; congruence|].
  rewrite html_count_spec by (auto using unreserved_ascii). cbn [Nat.add].
  set (n := length (flat_map (pct unreserved) (concat chars))).
  change (zeros (n + 1)) with ([] ++ zeros (n + 1)). change 0%nat with (length (@nil Z)) at 2.
  rewrite (html_loop_spec unreserved chars) by (auto using unreserved_ascii; rewrite length_zeros; fold n; lia).
  fold n. cbn [app]. do 2 f_equal. f_equal. apply skipn_all2. rewrite length_zeros. lia.
Qed.
Print Assumptions C63_html_alloc_partial.
Example C63_example : utf8_char [0xc3; 0xa4] /\ utf8_char [65] /\
  bin2hex_html_alloc [65; 0xc3; 0xa4; 32] = HRet 0 [65; 37; 67; 51; 37; 65; 52; 37; 50; 48; 0].
Proof. split; [constructor; unfold cont; lia|]. split; [constructor; lia|]. vm_compute. reflexivity. Qed.
(** The allocating form reads behind the string when it ends inside a character ... *)
Theorem C63_refuted : exists str, bytes str /\ bin2hex_html_alloc str = HOob.
Proof. exists [65; 0xc3]. split; [repeat constructor; unfold byte; lia|reflexivity]. Qed.
Print Assumptions C63_refuted.
(** ... and the empty string is terminated outside an empty buffer. *)
Theorem C63_empty_refuted : exists str buf, length buf = 0%nat /\ bin2hex_html str buf = HOob.
Proof. exists [], []. split; reflexivity. Qed.
Print Assumptions C63_empty_refuted.
