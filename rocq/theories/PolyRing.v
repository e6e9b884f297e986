(** Polynomials with integer coefficients modulo [X^n - r], as lists of
    coefficients, and the recursive number theoretic transform on them.
    Nothing in this file refers to the code: it is the mathematics used by the
    ML-KEM and ML-DSA proofs. *)
From Verif Require Import Bytes.
Require Import Lia.

(** ** Pointwise operations *)

Fixpoint padd (a b : list Z) : list Z :=
  match a, b with x :: a', y :: b' => (x + y) :: padd a' b' | _, _ => [] end.
Fixpoint psub (a b : list Z) : list Z :=
  match a, b with x :: a', y :: b' => (x - y) :: psub a' b' | _, _ => [] end.
Definition pscale (c : Z) (a : list Z) : list Z := map (fun x => c * x) a.

Lemma length_padd : forall a b, length (padd a b) = Nat.min (length a) (length b).
Proof. induction a; intros [|y b]; cbn; auto. Qed.
Lemma length_psub : forall a b, length (psub a b) = Nat.min (length a) (length b).
Proof. induction a; intros [|y b]; cbn; auto. Qed.
Lemma length_pscale : forall c a, length (pscale c a) = length a.
Proof. intros. apply map_length. Qed.
Lemma nth_padd : forall a b i, length a = length b -> nth i (padd a b) 0 = nth i a 0 + nth i b 0.
Proof. induction a; intros [|y b] [|i] H; cbn in *; try lia. apply IHa. lia. Qed.
Lemma nth_psub : forall a b i, length a = length b -> nth i (psub a b) 0 = nth i a 0 - nth i b 0.
Proof. induction a; intros [|y b] [|i] H; cbn in *; try lia. apply IHa. lia. Qed.
Lemma nth_pscale : forall c a i, nth i (pscale c a) 0 = c * nth i a 0.
Proof. induction a; intros [|i]; cbn; try lia; auto. Qed.
Lemma nth_app0 : forall (a b : list Z) i, nth i (a ++ b) 0 = if (i <? length a)%nat then nth i a 0 else nth (i - length a) b 0.
Proof.
  intros. destruct (Nat.ltb_spec i (length a)).
  - apply app_nth1. lia.
  - apply app_nth2. lia.
Qed.
Lemma nth_firstn0 : forall (a : list Z) n i, nth i (firstn n a) 0 = if (i <? n)%nat then nth i a 0 else 0.
Proof.
  intros a n i. destruct (Nat.ltb_spec i n).
  - apply firstn_nth0. lia.
  - apply nth_overflow. rewrite firstn_length. lia.
Qed.
Lemma nth_skipn0 : forall (a : list Z) n i, nth i (skipn n a) 0 = nth (n + i) a 0.
Proof. intros. apply skipn_nth0. Qed.

Ltac llen := repeat rewrite ?length_padd, ?length_psub, ?length_pscale, ?length_zeros, ?app_length.

(** sum of [f 0 .. f (n-1)] *)
Fixpoint zsum (n : nat) (f : nat -> Z) : Z :=
  match n with O => 0 | S n' => zsum n' f + f n' end.

Lemma zsum_ext : forall n f g, (forall i, (i < n)%nat -> f i = g i) -> zsum n f = zsum n g.
Proof. induction n; intros f g H; cbn; auto. rewrite (IHn f g), (H n); auto. Qed.
Lemma zsum_add : forall n f g, zsum n (fun i => f i + g i) = zsum n f + zsum n g.
Proof. induction n; intros; cbn; auto. rewrite IHn. lia. Qed.
Lemma zsum_mul : forall n c f, zsum n (fun i => c * f i) = c * zsum n f.
Proof. induction n; intros; cbn; try lia. rewrite IHn. lia. Qed.
Lemma zsum_S_l : forall n f, zsum (S n) f = f O + zsum n (fun i => f (S i)).
Proof. induction n; intros; cbn in *; try lia. rewrite IHn. lia. Qed.
Lemma zsum_split : forall a b f, zsum (a + b) f = zsum a f + zsum b (fun i => f (a + i)%nat).
Proof.
  induction b; intros; [rewrite Nat.add_0_r; cbn; lia|].
  rewrite Nat.add_succ_r. cbn [zsum]. rewrite IHb. lia.
Qed.
Lemma zsum_0 : forall n, zsum n (fun _ => 0) = 0.
Proof. induction n; cbn; lia. Qed.

(** ** Multiplication modulo X^n - r *)

(** X * b modulo X^n - r, n the length of b *)
Definition rot (r : Z) (b : list Z) : list Z :=
  match b with [] => [] | _ => (r * last b 0) :: removelast b end.

Fixpoint pmul (r : Z) (a b : list Z) : list Z :=
  match a with
  | [] => zeros (length b)
  | x :: a' => padd (pscale x b) (pmul r a' (rot r b))
  end.

(** The textbook coefficient formula for the product modulo X^n - r. *)
Definition conv (r : Z) (n : nat) (a b : list Z) : list Z :=
  map (fun k => zsum n (fun i => if (i <=? k)%nat then nth i a 0 * nth (k - i) b 0
                                 else r * (nth i a 0 * nth (n + k - i) b 0))) (seq 0 n).

Lemma length_removelast : forall (l : list Z), length (removelast l) = (length l - 1)%nat.
Proof.
  induction l as [|x l IH]; auto. destruct l; auto. change (S (length (removelast (z :: l))) = (S (S (length l)) - 1)%nat).
  rewrite IH. cbn [length]. lia.
Qed.
Lemma nth_removelast : forall (l : list Z) i, nth i (removelast l) 0 = if (S i <? length l)%nat then nth i l 0 else 0.
Proof.
  induction l as [|x l IH]; intros i. destruct i; reflexivity.
  destruct l as [|y l]. destruct i; reflexivity.
  change (removelast (x :: y :: l)) with (x :: removelast (y :: l)).
  destruct i. reflexivity.
  cbn [nth]. rewrite IH. cbn [length].
  change (S (S i) <? S (S (length l)))%nat with (S i <? S (length l))%nat. reflexivity.
Qed.
Lemma length_rot : forall r b, length (rot r b) = length b.
Proof. intros r [|x b]; auto. unfold rot. cbn [length]. rewrite length_removelast. cbn [length]. lia. Qed.
Lemma last_nth : forall (l : list Z), last l 0 = nth (length l - 1) l 0.
Proof.
  induction l as [|x l IH]; auto. destruct l as [|y l]; auto.
  change (last (x :: y :: l) 0) with (last (y :: l) 0). rewrite IH.
  replace (length (x :: y :: l) - 1)%nat with (S (length (y :: l) - 1)) by (cbn [length]; lia). reflexivity.
Qed.
Lemma nth_rot : forall r b i, nth i (rot r b) 0 =
  if (i <? length b)%nat then match i with O => r * nth (length b - 1) b 0 | S j => nth j b 0 end else 0.
Proof.
  intros r b i. destruct b as [|x b]. destruct i; reflexivity.
  unfold rot. destruct i; cbn [nth].
  - rewrite last_nth. reflexivity.
  - rewrite nth_removelast. reflexivity.
Qed.

Lemma length_pmul : forall a r b, length (pmul r a b) = length b.
Proof.
  induction a; intros; cbn [pmul]. apply length_zeros.
  rewrite length_padd, length_pscale, IHa, length_rot. lia.
Qed.

Lemma nth_pmul_cons : forall x a r b i, nth i (pmul r (x :: a) b) 0 = x * nth i b 0 + nth i (pmul r a (rot r b)) 0.
Proof.
  intros. cbn [pmul]. rewrite nth_padd, nth_pscale; auto.
  rewrite length_pscale, length_pmul, length_rot. reflexivity.
Qed.

Lemma rot_pscale : forall r c b, rot r (pscale c b) = pscale c (rot r b).
Proof.
  intros. apply nth_ext0. rewrite length_rot, !length_pscale, length_rot. reflexivity.
  intros i _. rewrite nth_pscale, !nth_rot, length_pscale.
  destruct (i <? length b)%nat; [|lia]. destruct i; rewrite nth_pscale; lia.
Qed.
Lemma rot_padd : forall r a b, length a = length b -> rot r (padd a b) = padd (rot r a) (rot r b).
Proof.
  intros r a b L. apply nth_ext0. rewrite length_rot, !length_padd, !length_rot. reflexivity.
  intros i _. rewrite nth_padd by (rewrite !length_rot; lia). rewrite !nth_rot, length_padd, L, Nat.min_id.
  destruct (i <? length b)%nat; [|lia]. destruct i; rewrite nth_padd; lia.
Qed.

Lemma pmul_pscale_r : forall a r c b, pmul r a (pscale c b) = pscale c (pmul r a b).
Proof.
  induction a; intros r c b.
  - cbn [pmul]. apply nth_ext0. rewrite !length_pscale, !length_zeros. reflexivity.
    intros i _. rewrite nth_pscale, !nth_zeros. lia.
  - apply nth_ext0. rewrite length_pscale, !length_pmul, length_pscale. reflexivity.
    intros i _. rewrite nth_pscale, !nth_pmul_cons, rot_pscale, IHa, !nth_pscale. lia.
Qed.
Lemma pmul_padd_r : forall a r b c, length b = length c -> pmul r a (padd b c) = padd (pmul r a b) (pmul r a c).
Proof.
  induction a; intros r b c L.
  - cbn [pmul]. apply nth_ext0. repeat rewrite ?length_padd, ?length_zeros. reflexivity.
    intros i _. rewrite nth_padd, !nth_zeros; auto. rewrite !length_zeros. auto.
  - apply nth_ext0. rewrite !length_padd, !length_pmul, length_padd. reflexivity.
    intros i _. rewrite nth_padd by (rewrite !length_pmul; lia).
    rewrite !nth_pmul_cons, nth_padd, rot_padd, IHa, nth_padd; auto; try (rewrite ?length_pmul, ?length_rot; lia).
Qed.
Lemma pmul_pscale_l : forall a r c b, pmul r (pscale c a) b = pscale c (pmul r a b).
Proof.
  induction a; intros r c b.
  - change (zeros (length b) = pscale c (zeros (length b))). apply nth_ext0. llen. reflexivity.
    intros i _. rewrite nth_pscale, nth_zeros. lia.
  - apply nth_ext0. rewrite length_pscale, !length_pmul. reflexivity.
    intros i _. change (pscale c (a :: a0)) with (c * a :: pscale c a0). rewrite nth_pscale, !nth_pmul_cons, IHa, nth_pscale. lia.
Qed.
Lemma pmul_padd_l : forall a a' r b, length a = length a' -> pmul r (padd a a') b = padd (pmul r a b) (pmul r a' b).
Proof.
  induction a; intros [|x' a'] r b L; try (cbn in L; lia).
  - cbn [padd pmul]. apply nth_ext0. llen. lia.
    intros i _. rewrite nth_padd, nth_zeros; auto.
  - apply nth_ext0. rewrite length_padd, !length_pmul. lia.
    intros i _. rewrite nth_padd by (rewrite !length_pmul; lia).
    change (padd (a :: a0) (x' :: a')) with (a + x' :: padd a0 a').
    rewrite !nth_pmul_cons, IHa, nth_padd by (rewrite ?length_pmul; cbn in L; lia). lia.
Qed.

(** iterated rotation *)
Fixpoint rotn (n : nat) (r : Z) (b : list Z) : list Z :=
  match n with O => b | S n' => rotn n' r (rot r b) end.
Lemma length_rotn : forall n r b, length (rotn n r b) = length b.
Proof. induction n; intros; cbn; auto. rewrite IHn, length_rot. reflexivity. Qed.
Lemma rotn_S : forall n r b, rotn (S n) r b = rot r (rotn n r b).
Proof. induction n; intros; cbn; auto. rewrite <- IHn. reflexivity. Qed.

Lemma nth_rotn : forall i r b k, (i <= length b)%nat -> (k < length b)%nat ->
  nth k (rotn i r b) 0 = if (i <=? k)%nat then nth (k - i) b 0 else r * nth (length b + k - i) b 0.
Proof.
  induction i; intros r b k Hi Hk.
  - cbn [rotn]. rewrite Nat.sub_0_r. reflexivity.
  - rewrite rotn_S, nth_rot, length_rotn.
    destruct (Nat.ltb_spec k (length b)); [|lia]. destruct k.
    + rewrite IHi by lia. destruct (Nat.leb_spec i (length b - 1)); [|lia].
      destruct (Nat.leb_spec (S i) 0); [lia|]. do 2 f_equal. lia.
    + rewrite IHi by lia. destruct (Nat.leb_spec i k); destruct (Nat.leb_spec (S i) (S k)); try lia.
      * reflexivity.
      * do 2 f_equal. lia.
Qed.

Lemma pmul_sum : forall a r b k, nth k (pmul r a b) 0 = zsum (length a) (fun i => nth i a 0 * nth k (rotn i r b) 0).
Proof.
  induction a; intros r b k.
  - cbn [pmul zsum length]. apply nth_zeros.
  - rewrite nth_pmul_cons, IHa. cbn [length]. rewrite zsum_S_l. reflexivity.
Qed.

Theorem pmul_conv : forall r a b, length a = length b -> pmul r a b = conv r (length b) a b.
Proof.
  intros r a b L. apply nth_ext0.
  - rewrite length_pmul. unfold conv. rewrite map_length, seq_length. reflexivity.
  - intros k Hk. rewrite length_pmul in Hk. rewrite pmul_sum. unfold conv. rewrite nth_map_seq by lia. cbn [Nat.add].
    rewrite L. apply zsum_ext. intros i Hi. rewrite nth_rotn by lia.
    destruct (i <=? k)%nat; lia.
Qed.

Lemma rotn_full : forall r b, rotn (length b) r b = pscale r b.
Proof.
  intros. apply nth_ext0. rewrite length_rotn, length_pscale. reflexivity.
  intros k Hk. rewrite length_rotn in Hk. rewrite nth_rotn, nth_pscale by lia.
  destruct (Nat.leb_spec (length b) k); [lia|]. do 2 f_equal. lia.
Qed.

Lemma pmul_app_l : forall a1 a2 r b, pmul r (a1 ++ a2) b = padd (pmul r a1 b) (pmul r a2 (rotn (length a1) r b)).
Proof.
  induction a1; intros a2 r b.
  - apply nth_ext0. cbn [app pmul length rotn]. rewrite length_padd, length_zeros, !length_pmul. lia.
    intros i _. cbn [app pmul length rotn]. rewrite nth_padd, nth_zeros. reflexivity.
    rewrite length_zeros, length_pmul. reflexivity.
  - apply nth_ext0. rewrite length_padd, !length_pmul, length_rotn. lia.
    intros i _. rewrite nth_padd by (rewrite !length_pmul, length_rotn; reflexivity).
    cbn [app length rotn]. rewrite !nth_pmul_cons, IHa1, nth_padd. lia.
    rewrite !length_pmul, length_rotn. reflexivity.
Qed.

(** ** Reduction from X^2n - z^2 to X^n - z *)

Definition phi (z : Z) (n : nat) (f : list Z) : list Z := padd (firstn n f) (pscale z (skipn n f)).

Lemma length_phi : forall z n f, length f = (n + n)%nat -> length (phi z n f) = n.
Proof. intros. unfold phi. rewrite length_padd, length_pscale, firstn_length, skipn_length. lia. Qed.
Lemma nth_phi : forall z n f i, length f = (n + n)%nat -> (i < n)%nat ->
  nth i (phi z n f) 0 = nth i f 0 + z * nth (n + i) f 0.
Proof.
  intros. unfold phi. rewrite nth_padd by (rewrite length_pscale, firstn_length, skipn_length; lia).
  rewrite nth_pscale, nth_firstn0, nth_skipn0. destruct (Nat.ltb_spec i n); [reflexivity|lia].
Qed.

Lemma phi_rot : forall z n b, length b = (n + n)%nat -> phi z n (rot (z * z) b) = rot z (phi z n b).
Proof.
  intros z n b L. apply nth_ext0. rewrite length_rot, !length_phi; auto. rewrite length_rot. auto.
  intros i Hi. rewrite length_phi in Hi by (rewrite length_rot; auto).
  rewrite nth_phi by (rewrite ?length_rot; auto). rewrite !nth_rot, length_phi, L by auto.
  destruct (Nat.ltb_spec i (n + n)); [|lia]. destruct (Nat.ltb_spec (n + i) (n + n)); [|lia].
  destruct (Nat.ltb_spec i n); [|lia]. destruct i.
  - rewrite Nat.add_0_r. destruct n as [|n]; [lia|].
    rewrite nth_phi by lia. replace (S n + (S n - 1))%nat with (S n + S n - 1)%nat by lia.
    replace (S n - 1)%nat with n by lia. ring.
  - rewrite Nat.add_succ_r. rewrite nth_phi by lia. reflexivity.
Qed.

Lemma phi_pscale : forall z n c f, phi z n (pscale c f) = pscale c (phi z n f).
Proof.
  intros. unfold phi, pscale. rewrite firstn_map, skipn_map.
  generalize (firstn n f) (skipn n f). induction l; intros [|y l2]; cbn; auto.
  f_equal. ring. apply IHl.
Qed.
Lemma phi_padd : forall z n f g, length f = (n + n)%nat -> length g = (n + n)%nat ->
  phi z n (padd f g) = padd (phi z n f) (phi z n g).
Proof.
  intros. assert (length (padd f g) = (n + n)%nat) by (rewrite length_padd; lia).
  apply nth_ext0. rewrite length_padd, !length_phi by auto. lia.
  intros i Hi. rewrite length_phi in Hi by auto.
  rewrite nth_padd by (rewrite !length_phi; auto). rewrite !nth_phi, !nth_padd by (auto; lia). ring.
Qed.
Lemma phi_pmul_r : forall a z n b, length b = (n + n)%nat ->
  phi z n (pmul (z * z) a b) = pmul z a (phi z n b).
Proof.
  induction a; intros z n b L.
  - cbn [pmul]. rewrite L, length_phi by auto. apply nth_ext0. rewrite length_phi; rewrite ?length_zeros; auto.
    intros i Hi. rewrite length_phi in Hi by (rewrite length_zeros; auto). rewrite nth_phi by (rewrite ?length_zeros; auto).
    rewrite !nth_zeros. ring.
  - cbn [pmul]. rewrite phi_padd, phi_pscale, IHa, phi_rot; auto.
    + rewrite length_rot. auto.
    + rewrite length_pscale. auto.
    + rewrite length_pmul, length_rot. auto.
Qed.

Lemma pmul_phi_l : forall a z n c, length a = (n + n)%nat -> length c = n -> pmul z a c = pmul z (phi z n a) c.
Proof.
  intros a z n c La Lc. rewrite <- (firstn_skipn n a) at 1. rewrite pmul_app_l.
  rewrite firstn_length. replace (Nat.min n (length a)) with (length c) by lia.
  rewrite rotn_full, pmul_pscale_r, <- pmul_pscale_l. unfold phi.
  rewrite pmul_padd_l; auto. rewrite length_pscale, firstn_length, skipn_length. lia.
Qed.

(** reduction is multiplicative *)
Theorem phi_pmul : forall z n a b, length a = (n + n)%nat -> length b = (n + n)%nat ->
  phi z n (pmul (z * z) a b) = pmul z (phi z n a) (phi z n b).
Proof.
  intros. rewrite phi_pmul_r by auto. apply pmul_phi_l; auto. apply length_phi. auto.
Qed.

(** ** Congruence modulo q *)

Definition M (q : Z) (l : list Z) : list Z := map (fun x => x mod q) l.

Section Cong.
  Variable q : Z.
  Hypothesis q_pos : 0 < q.
  Notation Mq := (M q).

  Lemma length_M : forall l, length (Mq l) = length l.
  Proof. intros. apply map_length. Qed.
  Lemma nth_M : forall l i, nth i (Mq l) 0 = nth i l 0 mod q.
  Proof.
    intros. unfold M. change 0 with ((fun x => x mod q) 0) at 1. apply map_nth.
  Qed.
  Lemma M_app : forall a b, Mq (a ++ b) = Mq a ++ Mq b.
  Proof. intros. apply map_app. Qed.
  Lemma M_firstn : forall n a, Mq (firstn n a) = firstn n (Mq a).
  Proof. intros. symmetry. apply firstn_map. Qed.
  Lemma M_skipn : forall n a, Mq (skipn n a) = skipn n (Mq a).
  Proof. intros. symmetry. apply skipn_map. Qed.
  Lemma M_M : forall a, Mq (Mq a) = Mq a.
  Proof. intros. unfold M. rewrite map_map. apply map_ext. intros. apply Z.mod_mod. lia. Qed.
  Lemma M_len : forall a b, Mq a = Mq b -> length a = length b.
  Proof. intros a b H. rewrite <- (length_M a), H. apply length_M. Qed.
  Lemma M_ext : forall a b, length a = length b ->
    (forall i, (i < length a)%nat -> nth i a 0 mod q = nth i b 0 mod q) -> Mq a = Mq b.
  Proof.
    intros a b L H. apply nth_ext0. rewrite !length_M. auto.
    intros i Hi. rewrite length_M in Hi. rewrite !nth_M. auto.
  Qed.
  Lemma M_nth : forall a b i, Mq a = Mq b -> nth i a 0 mod q = nth i b 0 mod q.
  Proof. intros a b i H. rewrite <- !nth_M, H. reflexivity. Qed.

  Lemma M_padd : forall a a' b b', Mq a = Mq a' -> Mq b = Mq b' -> Mq (padd a b) = Mq (padd a' b').
  Proof.
    induction a; intros [|x' a'] [|y b] [|y' b'] H1 H2; unfold M in *; cbn [map padd psub] in *; try discriminate; auto.
    inversion H1. inversion H2. f_equal; auto. rewrite Z.add_mod, H0, H4, <- Z.add_mod by lia. reflexivity.
  Qed.
  Lemma M_psub : forall a a' b b', Mq a = Mq a' -> Mq b = Mq b' -> Mq (psub a b) = Mq (psub a' b').
  Proof.
    induction a; intros [|x' a'] [|y b] [|y' b'] H1 H2; unfold M in *; cbn [map padd psub] in *; try discriminate; auto.
    inversion H1. inversion H2. f_equal; auto. rewrite Zminus_mod, H0, H4, <- Zminus_mod by lia. reflexivity.
  Qed.
  Lemma M_pscale : forall c c' a a', c mod q = c' mod q -> Mq a = Mq a' -> Mq (pscale c a) = Mq (pscale c' a').
  Proof.
    intros c c'. induction a; intros [|x' a'] H1 H2; unfold M, pscale in *; cbn [map] in *; try discriminate; auto.
    inversion H2. f_equal; auto. rewrite Z.mul_mod, H1, H0, <- Z.mul_mod by lia. reflexivity.
  Qed.
  Lemma M_phi : forall z z' n a a', z mod q = z' mod q -> Mq a = Mq a' -> Mq (phi z n a) = Mq (phi z' n a').
  Proof.
    intros. unfold phi. apply M_padd. rewrite !M_firstn, H0. reflexivity.
    apply M_pscale; auto. rewrite !M_skipn, H0. reflexivity.
  Qed.
  Lemma M_rot : forall r r' b b', r mod q = r' mod q -> Mq b = Mq b' -> Mq (rot r b) = Mq (rot r' b').
  Proof.
    intros r r' b b' Hr Hb. pose proof (M_len b b' Hb) as L. apply M_ext. rewrite !length_rot. auto.
    intros i Hi. rewrite !nth_rot, L. destruct (i <? length b')%nat; auto. destruct i.
    - rewrite Z.mul_mod, Hr, (M_nth b b' _ Hb), <- Z.mul_mod by lia. reflexivity.
    - apply M_nth. auto.
  Qed.
  Lemma M_pmul : forall a a' r r' b b', r mod q = r' mod q -> Mq a = Mq a' -> Mq b = Mq b' ->
    Mq (pmul r a b) = Mq (pmul r' a' b').
  Proof.
    induction a; intros [|x' a'] r r' b b' Hr Ha Hb; cbn [M map] in Ha; try discriminate.
    - cbn [pmul]. rewrite (M_len b b' Hb). reflexivity.
    - inversion Ha. cbn [pmul]. apply M_padd. apply M_pscale; auto. apply IHa; auto. apply M_rot; auto.
  Qed.
  Lemma M_zsum : forall n f g, (forall i, (i < n)%nat -> f i mod q = g i mod q) -> zsum n f mod q = zsum n g mod q.
  Proof.
    induction n; intros f g H; cbn [zsum]; auto.
    rewrite Z.add_mod, (IHn f g), (H n), <- Z.add_mod by (auto; lia). reflexivity.
  Qed.
End Cong.

(** ** The transform *)

Section Ntt.
  Variable q : Z.
  Hypothesis q_pos : 0 < q.
  (** size of the leaves *)
  Variable m : nat.
  (** the root used at inner node [k] of the tree (root 1, children 2k, 2k+1) *)
  Variable zeta : nat -> Z.
  Variable zinv : nat -> Z.
  (** constant r of the modulus X^n - r at node k *)
  Definition rt (k : nat) : Z :=
    if (k =? 1)%nat then -1 else if Nat.even k then zeta (k / 2) else - zeta (k / 2).
  Variable top : nat.
  Hypothesis zeta_sq : forall k, (1 <= k < top)%nat -> (zeta k * zeta k) mod q = rt k mod q.
  Hypothesis zeta_inv : forall k, (1 <= k < top)%nat -> (zeta k * zinv k) mod q = 1 mod q.
  Notation Mq := (M q).

  Lemma rt_even : forall k, (1 <= k)%nat -> rt (2 * k) = zeta k.
  Proof.
    intros. unfold rt. destruct (Nat.eqb_spec (2 * k) 1); [lia|].
    rewrite Nat.even_mul. cbn [Nat.even orb]. f_equal. rewrite Nat.mul_comm. apply Nat.div_mul. lia.
  Qed.
  Lemma rt_odd : forall k, (1 <= k)%nat -> rt (2 * k + 1) = - zeta k.
  Proof.
    intros. unfold rt. destruct (Nat.eqb_spec (2 * k + 1) 1); [lia|].
    rewrite Nat.even_add, Nat.even_mul. cbn [Nat.even orb eqb]. do 2 f_equal.
    rewrite Nat.mul_comm, Nat.div_add_l by lia. cbn. lia.
  Qed.

  Fixpoint nttR (d k : nat) (f : list Z) : list Z :=
    match d with
    | O => f
    | S d' => nttR d' (2 * k) (phi (zeta k) (m * 2 ^ d') f) ++
              nttR d' (2 * k + 1) (phi (- zeta k) (m * 2 ^ d') f)
    end.

  Fixpoint inttR (d k : nat) (f : list Z) : list Z :=
    match d with
    | O => f
    | S d' =>
      let a := inttR d' (2 * k) (firstn (m * 2 ^ d') f) in
      let b := inttR d' (2 * k + 1) (skipn (m * 2 ^ d') f) in
      padd a b ++ pscale (zinv k) (psub a b)
    end.

  Fixpoint mulR (d k : nat) (a b : list Z) : list Z :=
    match d with
    | O => pmul (rt k) a b
    | S d' => mulR d' (2 * k) (firstn (m * 2 ^ d') a) (firstn (m * 2 ^ d') b) ++
              mulR d' (2 * k + 1) (skipn (m * 2 ^ d') a) (skipn (m * 2 ^ d') b)
    end.

  Lemma size_S : forall d, (m * 2 ^ S d = m * 2 ^ d + m * 2 ^ d)%nat.
  Proof. intros. cbn [Nat.pow]. lia. Qed.

  Lemma length_nttR : forall d k f, length f = (m * 2 ^ d)%nat -> length (nttR d k f) = (m * 2 ^ d)%nat.
  Proof.
    induction d; intros k f L; auto. rewrite size_S in L.
    cbn [nttR]. rewrite app_length, !IHd, size_S by (apply length_phi; auto). reflexivity.
  Qed.
  Lemma length_inttR : forall d k f, length f = (m * 2 ^ d)%nat -> length (inttR d k f) = (m * 2 ^ d)%nat.
  Proof.
    induction d; intros k f L; auto. rewrite size_S in L.
    cbn [inttR]. rewrite app_length, length_pscale, length_padd, length_psub, !IHd, size_S;
      rewrite ?firstn_length, ?skipn_length; lia.
  Qed.
  Lemma length_mulR : forall d k a b, length b = (m * 2 ^ d)%nat -> length (mulR d k a b) = (m * 2 ^ d)%nat.
  Proof.
    induction d; intros k a b L. cbn [mulR]. rewrite length_pmul. auto. rewrite size_S in L.
    cbn [mulR]. rewrite app_length, !IHd, size_S; rewrite ?firstn_length, ?skipn_length; lia.
  Qed.

  Lemma M_nttR : forall d k f g, Mq f = Mq g -> Mq (nttR d k f) = Mq (nttR d k g).
  Proof.
    induction d; intros k f g H; auto. cbn [nttR]. rewrite !M_app. f_equal; apply IHd; apply M_phi; auto.
  Qed.
  Lemma M_inttR : forall d k f g, Mq f = Mq g -> Mq (inttR d k f) = Mq (inttR d k g).
  Proof.
    induction d; intros k f g H; auto. cbn [inttR]. rewrite !M_app.
    assert (E1 : Mq (firstn (m * 2 ^ d) f) = Mq (firstn (m * 2 ^ d) g)) by (rewrite !M_firstn, H; reflexivity).
    assert (E2 : Mq (skipn (m * 2 ^ d) f) = Mq (skipn (m * 2 ^ d) g)) by (rewrite !M_skipn, H; reflexivity).
    f_equal; [apply M_padd|apply M_pscale; auto; apply M_psub]; auto.
  Qed.
  Lemma M_mulR : forall d k a a' b b', Mq a = Mq a' -> Mq b = Mq b' -> Mq (mulR d k a b) = Mq (mulR d k a' b').
  Proof.
    induction d; intros k a a' b b' H1 H2; cbn [mulR]. apply M_pmul; auto. rewrite !M_app.
    f_equal; apply IHd; rewrite ?M_firstn, ?M_skipn, ?H1, ?H2; reflexivity.
  Qed.

  Lemma child_bound : forall d k, (k * 2 ^ S d <= top)%nat -> (2 * k * 2 ^ d <= top)%nat.
  Proof. intros. cbn [Nat.pow] in H. lia. Qed.

  Lemma node_lt : forall d k, (1 <= k)%nat -> (k * 2 ^ S d <= top)%nat -> (k < top)%nat.
  Proof. intros. cbn [Nat.pow] in H0. pose proof (Nat.pow_nonzero 2 d). nia. Qed.

  Lemma pmul_sq : forall k a b, (1 <= k < top)%nat -> Mq (pmul (rt k) a b) = Mq (pmul (zeta k * zeta k) a b).
  Proof. intros. apply M_pmul; auto. symmetry. apply zeta_sq. auto. Qed.

  (** The transform turns multiplication modulo X^n - rt k into leafwise multiplication. *)
  Theorem nttR_mul : forall d k a b, (1 <= k)%nat -> ((k + 1) * 2 ^ d <= 2 * top)%nat ->
    length a = (m * 2 ^ d)%nat -> length b = (m * 2 ^ d)%nat ->
    Mq (nttR d k (pmul (rt k) a b)) = Mq (mulR d k (nttR d k a) (nttR d k b)).
  Proof.
    induction d; intros k a b Hk Ht La Lb. reflexivity.
    assert (HP := Nat.pow_nonzero 2 d ltac:(lia)).
    cbn [Nat.pow] in Ht. rewrite size_S in La, Lb.
    assert (K : (1 <= k < top)%nat) by nia.
    transitivity (Mq (nttR (S d) k (pmul (zeta k * zeta k) a b))).
    { apply M_nttR. apply pmul_sq. auto. }
    cbn [nttR mulR]. set (n := (m * 2 ^ d)%nat) in *.
    assert (L1 : forall z f, length f = (n + n)%nat -> length (nttR d z (phi (zeta k) n f)) = n)
      by (intros; apply length_nttR; apply length_phi; auto).
    assert (L2 : forall z f, length f = (n + n)%nat -> length (nttR d z (phi (- zeta k) n f)) = n)
      by (intros; apply length_nttR; apply length_phi; auto).
    assert (FF : forall x, length x = (n + n)%nat -> firstn n (nttR d (2 * k) (phi (zeta k) n x) ++ nttR d (2 * k + 1) (phi (- zeta k) n x)) = nttR d (2 * k) (phi (zeta k) n x)
      /\ skipn n (nttR d (2 * k) (phi (zeta k) n x) ++ nttR d (2 * k + 1) (phi (- zeta k) n x)) = nttR d (2 * k + 1) (phi (- zeta k) n x)).
    { intros x Lx. rewrite <- (L1 (2 * k)%nat x Lx) at 1 5. split. apply firstn_length_app. apply skipn_length_app. }
    destruct (FF a La) as [-> ->]. destruct (FF b Lb) as [-> ->]. rewrite !M_app. f_equal.
    - rewrite phi_pmul by auto. rewrite <- (rt_even k) at 1 by lia. apply IHd; try (apply length_phi; auto); nia.
    - replace (zeta k * zeta k) with ((- zeta k) * (- zeta k)) by ring.
      rewrite phi_pmul by auto. rewrite <- (rt_odd k) at 1 by lia. apply IHd; try (apply length_phi; auto); nia.
  Qed.

  Lemma pscale_app : forall c a b, pscale c (a ++ b) = pscale c a ++ pscale c b.
  Proof. intros. apply map_app. Qed.

  Theorem inttR_nttR : forall d k f, (1 <= k)%nat -> ((k + 1) * 2 ^ d <= 2 * top)%nat -> length f = (m * 2 ^ d)%nat ->
    Mq (inttR d k (nttR d k f)) = Mq (pscale (2 ^ Z.of_nat d) f).
  Proof.
    induction d; intros k f Hk Ht L.
    - cbn [nttR inttR]. change (2 ^ Z.of_nat 0) with 1. f_equal. unfold pscale.
      rewrite <- (map_id f) at 1. apply map_ext. intros. lia.
    - assert (HP := Nat.pow_nonzero 2 d ltac:(lia)).
      cbn [Nat.pow] in Ht. rewrite size_S in L.
      assert (K : (1 <= k < top)%nat) by nia.
      cbn [nttR inttR]. set (n := (m * 2 ^ d)%nat) in *.
      assert (L1 : length (nttR d (2 * k) (phi (zeta k) n f)) = n) by (apply length_nttR; apply length_phi; auto).
      assert (F1 : firstn n (nttR d (2 * k) (phi (zeta k) n f) ++ nttR d (2 * k + 1) (phi (- zeta k) n f)) = nttR d (2 * k) (phi (zeta k) n f)).
      { rewrite <- L1 at 1. apply firstn_length_app. }
      assert (F2 : skipn n (nttR d (2 * k) (phi (zeta k) n f) ++ nttR d (2 * k + 1) (phi (- zeta k) n f)) = nttR d (2 * k + 1) (phi (- zeta k) n f)).
      { rewrite <- L1 at 1. apply skipn_length_app. }
      rewrite F1, F2. clear F1 F2.
      assert (A := IHd (2 * k)%nat (phi (zeta k) n f) ltac:(lia) ltac:(nia) (length_phi _ _ _ L)).
      assert (B := IHd (2 * k + 1)%nat (phi (- zeta k) n f) ltac:(lia) ltac:(nia) (length_phi _ _ _ L)).
      set (a := inttR d (2 * k) _) in *. set (b := inttR d (2 * k + 1) _) in *.
      rewrite M_app.
      rewrite (M_padd q q_pos _ _ _ _ A B).
      rewrite (M_pscale q q_pos (zinv k) (zinv k) _ _ eq_refl (M_psub q _ _ _ _ A B)).
      rewrite <- M_app. rewrite Nat2Z.inj_succ, Z.pow_succ_r by lia. set (c := 2 ^ Z.of_nat d).
      apply M_ext. rewrite app_length, !length_pscale, length_padd, length_psub, !length_pscale, !length_phi by auto. lia.
      intros i Hi. rewrite app_length, length_pscale, length_padd, length_psub, !length_pscale, !length_phi in Hi by auto.
      rewrite nth_app0, length_padd, !length_pscale, !length_phi, Nat.min_id by auto.
      destruct (Nat.ltb_spec i n).
      + rewrite nth_padd by (rewrite !length_pscale, !length_phi; auto).
        rewrite !nth_pscale, !nth_phi by auto. f_equal. ring.
      + rewrite nth_pscale, nth_psub by (rewrite !length_pscale, !length_phi; auto).
        rewrite !nth_pscale, !nth_phi by (auto; lia). replace (n + (i - n))%nat with i by lia.
        set (x := nth (i - n) f 0). set (y := nth i f 0).
        replace (zinv k * (c * (x + zeta k * y) - c * (x + - zeta k * y))) with ((zeta k * zinv k) * (2 * c * y)) by ring.
        rewrite Z.mul_mod, (zeta_inv k K), <- Z.mul_mod by lia. f_equal. ring.
  Qed.

  Theorem nttR_inttR : forall d k f, (1 <= k)%nat -> ((k + 1) * 2 ^ d <= 2 * top)%nat -> length f = (m * 2 ^ d)%nat ->
    Mq (nttR d k (inttR d k f)) = Mq (pscale (2 ^ Z.of_nat d) f).
  Proof.
    induction d; intros k f Hk Ht L.
    - cbn [nttR inttR]. change (2 ^ Z.of_nat 0) with 1. f_equal. unfold pscale.
      rewrite <- (map_id f) at 1. apply map_ext. intros. lia.
    - assert (HP := Nat.pow_nonzero 2 d ltac:(lia)).
      cbn [Nat.pow] in Ht. rewrite size_S in L.
      assert (K : (1 <= k < top)%nat) by nia.
      cbn [nttR inttR]. set (n := (m * 2 ^ d)%nat) in *.
      assert (Lf : length (firstn n f) = n) by (rewrite firstn_length; lia).
      assert (Ls : length (skipn n f) = n) by (rewrite skipn_length; lia).
      assert (A := IHd (2 * k)%nat (firstn n f) ltac:(lia) ltac:(nia) Lf).
      assert (B := IHd (2 * k + 1)%nat (skipn n f) ltac:(lia) ltac:(nia) Ls).
      set (a := inttR d (2 * k) (firstn n f)) in *. set (b := inttR d (2 * k + 1) (skipn n f)) in *.
      assert (La : length a = n) by (apply length_inttR; auto).
      assert (Lb : length b = n) by (apply length_inttR; auto).
      set (g := padd a b ++ pscale (zinv k) (psub a b)).
      assert (Lg : length g = (n + n)%nat) by (unfold g; rewrite app_length, length_pscale, length_padd, length_psub; lia).
      assert (Lp : length (padd a b) = n) by (rewrite length_padd; lia).
      assert (G1 : Mq (phi (zeta k) n g) = Mq (pscale 2 a)).
      { apply M_ext. rewrite length_phi, length_pscale; auto. intros i Hi. rewrite length_phi in Hi by auto.
        rewrite nth_phi by auto. unfold g. rewrite !nth_app0, Lp.
        destruct (Nat.ltb_spec i n); [|lia]. destruct (Nat.ltb_spec (n + i) n); [lia|].
        replace (n + i - n)%nat with i by lia. rewrite !nth_pscale, nth_padd, nth_psub by lia.
        replace (nth i a 0 + nth i b 0 + zeta k * (zinv k * (nth i a 0 - nth i b 0)))
          with (nth i a 0 + nth i b 0 + (zeta k * zinv k) * (nth i a 0 - nth i b 0)) by ring.
        rewrite Z.add_mod, (Z.mul_mod (zeta k * zinv k)), (zeta_inv k K), <- Z.mul_mod, <- Z.add_mod by lia.
        f_equal. ring. }
      assert (G2 : Mq (phi (- zeta k) n g) = Mq (pscale 2 b)).
      { apply M_ext. rewrite length_phi, length_pscale; auto; lia. intros i Hi. rewrite length_phi in Hi by auto.
        rewrite nth_phi by auto. unfold g. rewrite !nth_app0, Lp.
        destruct (Nat.ltb_spec i n); [|lia]. destruct (Nat.ltb_spec (n + i) n); [lia|].
        replace (n + i - n)%nat with i by lia. rewrite !nth_pscale, nth_padd, nth_psub by lia.
        replace (nth i a 0 + nth i b 0 + - zeta k * (zinv k * (nth i a 0 - nth i b 0)))
          with (nth i a 0 + nth i b 0 + (zeta k * zinv k) * (nth i b 0 - nth i a 0)) by ring.
        rewrite Z.add_mod, (Z.mul_mod (zeta k * zinv k)), (zeta_inv k K), <- Z.mul_mod, <- Z.add_mod by lia.
        f_equal. ring. }
      assert (S2 : forall j c, Mq (nttR d j (pscale 2 c)) = Mq (pscale 2 (nttR d j c))).
      { clear. induction d; intros j c; auto. cbn [nttR]. rewrite pscale_app, !phi_pscale, !M_app.
        f_equal; apply IHd. }
      rewrite M_app, (M_nttR _ _ _ _ G1), (M_nttR _ _ _ _ G2), !S2.
      rewrite (M_pscale q q_pos 2 2 _ _ eq_refl A), (M_pscale q q_pos 2 2 _ _ eq_refl B).
      rewrite <- M_app, <- pscale_app. f_equal. rewrite <- pscale_app, firstn_skipn.
      rewrite Nat2Z.inj_succ, Z.pow_succ_r by lia. unfold pscale. rewrite map_map. apply map_ext. intros. ring.
  Qed.

  (** Each leaf is the residue of the polynomial modulo X^m - rt(leaf). *)
  Lemma rt_child_sq : forall k, (1 <= k < top)%nat ->
    (rt (2 * k) * rt (2 * k)) mod q = rt k mod q /\ (rt (2 * k + 1) * rt (2 * k + 1)) mod q = rt k mod q.
  Proof.
    intros. rewrite rt_even, rt_odd by lia. replace (- zeta k * - zeta k) with (zeta k * zeta k) by ring.
    rewrite zeta_sq by auto. auto.
  Qed.

  Lemma pow_cong : forall a b n, a mod q = b mod q -> (a ^ Z.of_nat n) mod q = (b ^ Z.of_nat n) mod q.
  Proof.
    intros a b n H. induction n. reflexivity.
    rewrite Nat2Z.inj_succ, !Z.pow_succ_r by lia. rewrite Z.mul_mod, H, IHn, <- Z.mul_mod by lia. reflexivity.
  Qed.

  (** the root at a leaf raised to the number of leaves below k is the root at k *)
  Lemma rt_leaf : forall d k s, (1 <= k)%nat -> ((k + 1) * 2 ^ d <= 2 * top)%nat -> (s < 2 ^ d)%nat ->
    (rt (k * 2 ^ d + s) ^ Z.of_nat (2 ^ d)) mod q = rt k mod q.
  Proof.
    induction d; intros k s Hk Ht Hs.
    - cbn [Nat.pow] in *. assert (s = O) by lia. subst s. rewrite Nat.mul_1_r, Nat.add_0_r.
      change (Z.of_nat 1) with 1. rewrite Z.pow_1_r. reflexivity.
    - cbn [Nat.pow] in *. assert (HP := Nat.pow_nonzero 2 d ltac:(lia)).
      assert (K : (1 <= k < top)%nat) by nia. destruct (rt_child_sq k K) as [E O].
      replace (2 * 2 ^ d)%nat with (2 ^ d * 2)%nat by lia.
      rewrite Nat2Z.inj_mul, Z.pow_mul_r by lia. change (Z.of_nat 2) with 2. rewrite Z.pow_2_r.
      destruct (Nat.lt_ge_cases s (2 ^ d)).
      + replace (k * (2 ^ d * 2) + s)%nat with (2 * k * 2 ^ d + s)%nat by lia.
        rewrite Z.mul_mod, IHd, <- Z.mul_mod by (try lia; nia). auto.
      + replace (k * (2 ^ d * 2) + s)%nat with ((2 * k + 1) * 2 ^ d + (s - 2 ^ d))%nat by nia.
        rewrite Z.mul_mod, IHd, <- Z.mul_mod by (try lia; nia). auto.
  Qed.

  Theorem nttR_leaf : forall d k f s i, (1 <= k)%nat -> ((k + 1) * 2 ^ d <= 2 * top)%nat ->
    length f = (m * 2 ^ d)%nat -> (s < 2 ^ d)%nat -> (i < m)%nat ->
    nth (m * s + i) (nttR d k f) 0 mod q =
    zsum (2 ^ d) (fun j => rt (k * 2 ^ d + s) ^ Z.of_nat j * nth (m * j + i) f 0) mod q.
  Proof.
    induction d; intros k f s i Hk Ht L Hs Hi.
    - cbn [Nat.pow] in *. assert (s = O) by lia. subst s. rewrite Nat.mul_0_r. cbn [zsum nttR].
      rewrite Nat.mul_0_r. change (Z.of_nat 0) with 0. rewrite Z.pow_0_r. f_equal. cbn [Nat.add]. lia.
    - assert (HP := Nat.pow_nonzero 2 d ltac:(lia)). rewrite size_S in L. cbn [nttR].
      set (n := (m * 2 ^ d)%nat) in *. cbn [Nat.pow] in Ht, Hs.
      assert (K : (1 <= k < top)%nat) by nia.
      assert (L1 : length (nttR d (2 * k) (phi (zeta k) n f)) = n) by (apply length_nttR; apply length_phi; auto).
      assert (Q : forall z kk ss, (ss < 2 ^ d)%nat -> (1 <= kk)%nat -> ((kk + 1) * 2 ^ d <= 2 * top)%nat -> z mod q = rt kk mod q ->
        nth (m * ss + i) (nttR d kk (phi z n f)) 0 mod q =
        zsum (2 ^ d + 2 ^ d) (fun j => rt (kk * 2 ^ d + ss) ^ Z.of_nat j * nth (m * j + i) f 0) mod q).
      { intros z kk ss Hss Hkk Hkt Hz. rewrite IHd; try lia; try (apply length_phi; auto).
        rewrite zsum_split, <- zsum_add. apply M_zsum; auto. intros j Hj.
        rewrite nth_phi by (auto; unfold n; nia).
        rewrite Nat2Z.inj_add, Z.pow_add_r by lia.
        replace (m * (2 ^ d + j) + i)%nat with (n + (m * j + i))%nat by (unfold n; nia).
        set (x := nth (m * j + i) f 0). set (y := nth (n + (m * j + i)) f 0). set (rho := rt (kk * 2 ^ d + ss)).
        replace (rho ^ Z.of_nat j * (x + z * y)) with (rho ^ Z.of_nat j * x + z * (rho ^ Z.of_nat j * y)) by ring.
        replace (rho ^ Z.of_nat j * x + rho ^ Z.of_nat (2 ^ d) * rho ^ Z.of_nat j * y)
          with (rho ^ Z.of_nat j * x + rho ^ Z.of_nat (2 ^ d) * (rho ^ Z.of_nat j * y)) by ring.
        rewrite Z.add_mod, (Z.mul_mod z), Hz by lia.
        rewrite <- (rt_leaf d kk ss Hkk Hkt Hss). fold rho. rewrite <- Z.mul_mod, <- Z.add_mod by lia. reflexivity. }
      replace (2 ^ S d)%nat with (2 ^ d + 2 ^ d)%nat by (cbn [Nat.pow]; lia).
      rewrite nth_app0, L1. destruct (Nat.lt_ge_cases s (2 ^ d)).
      + destruct (Nat.ltb_spec (m * s + i) n); [|unfold n in *; nia].
        replace (k * (2 ^ d + 2 ^ d) + s)%nat with (2 * k * 2 ^ d + s)%nat by lia.
        apply Q; try lia; try nia. rewrite rt_even by lia. reflexivity.
      + destruct (Nat.ltb_spec (m * s + i) n); [unfold n in *; nia|].
        replace (m * s + i - n)%nat with (m * (s - 2 ^ d) + i)%nat by (unfold n; nia).
        replace (k * (2 ^ d + 2 ^ d) + s)%nat with ((2 * k + 1) * 2 ^ d + (s - 2 ^ d))%nat by nia.
        apply Q; try lia; try nia. rewrite rt_odd by lia. reflexivity.
  Qed.

  (** leafwise multiplication, by position *)
  Lemma mulR_leaf : forall d k a b s, length a = (m * 2 ^ d)%nat -> length b = (m * 2 ^ d)%nat -> (s < 2 ^ d)%nat ->
    slice (mulR d k a b) (m * s) m = pmul (rt (k * 2 ^ d + s)) (slice a (m * s) m) (slice b (m * s) m).
  Proof.
    induction d; intros k a b s La Lb Hs.
    - cbn [Nat.pow] in *. assert (s = O) by lia. subst s. rewrite Nat.mul_0_r. cbn [mulR].
      rewrite Nat.mul_1_r in *. unfold slice. cbn [skipn]. rewrite !firstn_all2 by (rewrite ?length_pmul; lia).
      rewrite Nat.add_0_r. reflexivity.
    - assert (HP := Nat.pow_nonzero 2 d ltac:(lia)). rewrite size_S in La, Lb. cbn [mulR Nat.pow] in *.
      set (n := (m * 2 ^ d)%nat) in *.
      assert (L1 : length (mulR d (2 * k) (firstn n a) (firstn n b)) = n)
        by (apply length_mulR; rewrite firstn_length; lia).
      destruct (Nat.lt_ge_cases s (2 ^ d)).
      + assert (SL : forall l : list Z, slice (firstn n l) (m * s) m = slice l (m * s) m).
        { intros l. unfold slice. rewrite skipn_firstn_comm, firstn_firstn. f_equal. unfold n. nia. }
        unfold slice at 1. rewrite skipn_app_l by (rewrite L1; unfold n; nia).
        rewrite firstn_app_l by (rewrite skipn_length, L1; unfold n; nia).
        change (slice (mulR d (2 * k) (firstn n a) (firstn n b)) (m * s) m = pmul (rt (k * (2 * 2 ^ d) + s)) (slice a (m * s) m) (slice b (m * s) m)).
        rewrite IHd by (rewrite ?firstn_length; lia). rewrite !SL. do 2 f_equal. lia.
      + assert (SL : forall l : list Z, slice (skipn n l) (m * (s - 2 ^ d)) m = slice l (m * s) m).
        { intros l. unfold slice. rewrite skipn_skipn'. do 2 f_equal. unfold n. nia. }
        unfold slice at 1. rewrite skipn_app_r by (rewrite L1; unfold n; nia). rewrite L1.
        replace (m * s - n)%nat with (m * (s - 2 ^ d))%nat by (unfold n; nia).
        change (slice (mulR d (2 * k + 1) (skipn n a) (skipn n b)) (m * (s - 2 ^ d)) m = pmul (rt (k * (2 * 2 ^ d) + s)) (slice a (m * s) m) (slice b (m * s) m)).
        rewrite IHd by (rewrite ?skipn_length; lia). rewrite !SL. do 2 f_equal. nia.
  Qed.
End Ntt.
