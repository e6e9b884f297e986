(** Byte strings, XOR on strings, chunking, integer encodings.
    Mathematical library shared by specification and model files; it models no particular
    function of /repo except where a comment says so. *)
From Coq Require Export ZArith List Lia Bool Arith.
Export ListNotations.
Open Scope Z_scope.

(** ** Ranges *)

Definition byte (x : Z) : Prop := 0 <= x < 256.
Definition bytes (l : list Z) : Prop := Forall byte l.

Definition zeros (n : nat) : list Z := repeat 0 n.

(** Truncation to n bits, as performed by C unsigned types. *)
Definition trunc (n x : Z) : Z := x mod 2 ^ n.
Definition u8 (x : Z) : Z := x mod 256.
Definition u16 (x : Z) : Z := x mod 65536.
Definition u32 (x : Z) : Z := x mod 4294967296.
Definition u64 (x : Z) : Z := x mod 18446744073709551616.

(** ** XOR *)

(** XOR of two strings, length of the shorter. *)
Fixpoint xorl (a b : list Z) : list Z :=
  match a, b with
  | x :: a', y :: b' => Z.lxor x y :: xorl a' b'
  | _, _ => []
  end.

(** [d] XORed into the front of [s]; the length of [s] is kept. *)
Fixpoint xor_into (s d : list Z) : list Z :=
  match s, d with
  | x :: s', y :: d' => Z.lxor x y :: xor_into s' d'
  | _, _ => s
  end.

(** [d] XORed into [s] from position [off] on. *)
Definition xor_at (s : list Z) (off : nat) (d : list Z) : list Z :=
  firstn off s ++ xor_into (skipn off s) d.

(** [d] stored into [s] from position [off] on (within the bounds of [s]). *)
Definition store_at (s : list Z) (off : nat) (d : list Z) : list Z :=
  firstn off s ++ firstn (length s - off) d ++ skipn (off + length d) s.

Definition slice (s : list Z) (off len : nat) : list Z := firstn len (skipn off s).

(** ** General list lemmas *)

Lemma nth_ext0 : forall (a b : list Z),
  length a = length b -> (forall i, (i < length a)%nat -> nth i a 0 = nth i b 0) -> a = b.
Proof. intros a b H1 H2. exact (nth_ext a b 0 0 H1 H2). Qed.

Lemma firstn_nth0 : forall (A : Type) n i (l : list A) d,
  (i < n)%nat -> nth i (firstn n l) d = nth i l d.
Proof.
  intros A n. induction n; intros i l d Hi; [lia|].
  destruct l; [reflexivity|]. destruct i; [reflexivity|].
  simpl. apply IHn. lia.
Qed.

Lemma skipn_nth0 : forall (A : Type) n i (l : list A) d,
  nth i (skipn n l) d = nth (n + i) l d.
Proof.
  intros A n. induction n; intros i l d; [reflexivity|].
  destruct l; simpl; [destruct i; reflexivity|apply IHn].
Qed.

Lemma skipn_skipn' : forall (A : Type) n m (l : list A),
  skipn n (skipn m l) = skipn (m + n) l.
Proof.
  intros A n m. revert n. induction m; intros n l; [reflexivity|].
  destruct l; simpl; [destruct n; reflexivity|apply IHm].
Qed.

Lemma firstn_app_l : forall (A : Type) n (a b : list A),
  (n <= length a)%nat -> firstn n (a ++ b) = firstn n a.
Proof.
  intros. rewrite firstn_app. replace (n - length a)%nat with 0%nat by lia.
  simpl. apply app_nil_r.
Qed.

Lemma firstn_app_r : forall (A : Type) n (a b : list A),
  (length a <= n)%nat -> firstn n (a ++ b) = a ++ firstn (n - length a) b.
Proof.
  intros. rewrite firstn_app. rewrite firstn_all2 by lia. reflexivity.
Qed.

Lemma skipn_app_l : forall (A : Type) n (a b : list A),
  (n <= length a)%nat -> skipn n (a ++ b) = skipn n a ++ b.
Proof.
  intros. rewrite skipn_app. replace (n - length a)%nat with 0%nat by lia.
  reflexivity.
Qed.

Lemma skipn_app_r : forall (A : Type) n (a b : list A),
  (length a <= n)%nat -> skipn n (a ++ b) = skipn (n - length a) b.
Proof.
  intros. rewrite skipn_app. rewrite skipn_all2 by lia. reflexivity.
Qed.

Lemma firstn_length_app : forall (A : Type) (a b : list A),
  firstn (length a) (a ++ b) = a.
Proof. intros. rewrite firstn_app_l by lia. apply firstn_all. Qed.

Lemma skipn_length_app : forall (A : Type) (a b : list A),
  skipn (length a) (a ++ b) = b.
Proof. intros. rewrite skipn_app_r by lia. rewrite Nat.sub_diag. reflexivity. Qed.

Lemma app_eq_split : forall (A : Type) (a b c d : list A),
  length a = length c -> a ++ b = c ++ d -> a = c /\ b = d.
Proof.
  intros A a. induction a; intros b c d Hl He; destruct c; simpl in *; try discriminate.
  - auto.
  - injection He as -> He. injection Hl as Hl.
    destruct (IHa _ _ _ Hl He) as [-> ->]. auto.
Qed.

Lemma length_zeros : forall n, length (zeros n) = n.
Proof. intros. apply repeat_length. Qed.

Lemma nth_zeros : forall n i, nth i (zeros n) 0 = 0.
Proof.
  intros n. induction n; intros i; simpl; destruct i; auto.
Qed.

Lemma zeros_app : forall a b, zeros (a + b) = zeros a ++ zeros b.
Proof. intros. apply repeat_app. Qed.

Lemma Forall_firstn' : forall (A : Type) (P : A -> Prop) n l,
  Forall P l -> Forall P (firstn n l).
Proof.
  intros A P n. induction n; intros l H; simpl; [constructor|].
  destruct H; constructor; auto.
Qed.

Lemma Forall_skipn' : forall (A : Type) (P : A -> Prop) n l,
  Forall P l -> Forall P (skipn n l).
Proof.
  intros A P n. induction n; intros l H; simpl; [exact H|].
  destruct H; [constructor|auto].
Qed.

Lemma Forall_app' : forall (A : Type) (P : A -> Prop) a b,
  Forall P a -> Forall P b -> Forall P (a ++ b).
Proof. intros. apply Forall_app. auto. Qed.

Lemma bytes_zeros : forall n, bytes (zeros n).
Proof. intros n. induction n; constructor; auto. unfold byte; lia. Qed.

Lemma bytes_nth : forall l i, bytes l -> 0 <= nth i l 0 < 256.
Proof.
  intros l i H. destruct (Nat.lt_ge_cases i (length l)).
  - unfold bytes in H. rewrite Forall_forall in H. apply H. apply nth_In; lia.
  - rewrite nth_overflow by lia. lia.
Qed.

(** ** XOR lemmas *)

Lemma length_xorl : forall a b, length (xorl a b) = Nat.min (length a) (length b).
Proof. induction a; destruct b; simpl; auto. Qed.

Lemma xorl_comm : forall a b, xorl a b = xorl b a.
Proof. induction a; destruct b; simpl; auto. rewrite Z.lxor_comm, IHa. reflexivity. Qed.

Lemma xorl_cancel : forall a k, (length a <= length k)%nat -> xorl (xorl a k) k = a.
Proof.
  induction a; intros k H; simpl; auto. destruct k; simpl in *; [lia|].
  rewrite IHa by lia. rewrite Z.lxor_assoc, Z.lxor_nilpotent, Z.lxor_0_r. reflexivity.
Qed.

Lemma xorl_app : forall a b c d, length a = length c ->
  xorl (a ++ b) (c ++ d) = xorl a c ++ xorl b d.
Proof.
  induction a; intros b c d H; destruct c; simpl in *; try discriminate; auto.
  rewrite IHa by lia. reflexivity.
Qed.

Lemma xorl_firstn : forall n a b, xorl (firstn n a) (firstn n b) = firstn n (xorl a b).
Proof.
  induction n; intros; simpl; auto. destruct a, b; simpl; auto.
  rewrite IHn. reflexivity.
Qed.

Lemma xorl_firstn_r : forall a b n, (length a <= n)%nat -> xorl a (firstn n b) = xorl a b.
Proof.
  induction a; intros b n H; simpl; auto.
  destruct n; simpl in *; [lia|]. destruct b; auto. rewrite IHa by lia. reflexivity.
Qed.

Lemma xorl_nil_r : forall a, xorl a [] = [].
Proof. destruct a; reflexivity. Qed.

Lemma nth_xorl : forall a b i, (i < length a)%nat -> (i < length b)%nat ->
  nth i (xorl a b) 0 = Z.lxor (nth i a 0) (nth i b 0).
Proof.
  induction a; intros b i Ha Hb; destruct b; simpl in *; try lia.
  destruct i; auto. apply IHa; lia.
Qed.

Lemma xorl_zeros_r : forall a n, (length a <= n)%nat -> xorl a (zeros n) = a.
Proof.
  induction a; intros n H; simpl; auto. destruct n; simpl in *; [lia|].
  rewrite Z.lxor_0_r. f_equal. apply IHa. lia.
Qed.

Lemma xorl_self : forall a, xorl a a = zeros (length a).
Proof. induction a; simpl; auto. rewrite Z.lxor_nilpotent, IHa. reflexivity. Qed.

Lemma length_xor_into : forall s d, length (xor_into s d) = length s.
Proof. induction s; destruct d; simpl; auto. Qed.

Lemma xor_into_nil : forall s, xor_into s [] = s.
Proof. destruct s; reflexivity. Qed.

Lemma nth_xor_into : forall s d i, (i < length s)%nat ->
  nth i (xor_into s d) 0 = Z.lxor (nth i s 0) (nth i d 0).
Proof.
  induction s; intros d i Hi; simpl in *; [lia|].
  destruct d; simpl.
  - destruct i; rewrite Z.lxor_0_r; reflexivity.
  - destruct i; auto. apply IHs. lia.
Qed.

Lemma xor_into_app : forall s a b, (length a <= length s)%nat ->
  xor_into s (a ++ b) = xor_into (firstn (length a) s) a ++ xor_into (skipn (length a) s) b.
Proof.
  induction s; intros a0 b H; simpl in *.
  - destruct a0; simpl in *; [|lia]. reflexivity.
  - destruct a0; simpl; auto. rewrite IHs by (simpl in H; lia). reflexivity.
Qed.

Lemma xor_into_split : forall s1 s2 d, length s1 = length d ->
  xor_into (s1 ++ s2) d = xor_into s1 d ++ s2.
Proof.
  induction s1; intros s2 d H; destruct d; simpl in *; try discriminate.
  - destruct s2; reflexivity.
  - rewrite IHs1 by lia. reflexivity.
Qed.

Lemma xor_into_xorl : forall s d, length s = length d -> xor_into s d = xorl s d.
Proof.
  induction s; destruct d; simpl; intros; try discriminate; auto.
  rewrite IHs by lia. reflexivity.
Qed.

Lemma xor_at_0 : forall s d, xor_at s 0 d = xor_into s d.
Proof. reflexivity. Qed.

Lemma xor_at_nil : forall s off, xor_at s off [] = s.
Proof.
  intros. unfold xor_at. rewrite xor_into_nil. apply firstn_skipn.
Qed.

Lemma length_xor_at : forall s off d, length (xor_at s off d) = length s.
Proof.
  intros. unfold xor_at. rewrite app_length, length_xor_into.
  rewrite firstn_length, skipn_length. lia.
Qed.

Lemma nth_xor_at : forall s off d i, (i < length s)%nat ->
  nth i (xor_at s off d) 0 =
  if (i <? off)%nat then nth i s 0 else Z.lxor (nth i s 0) (nth (i - off) d 0).
Proof.
  intros s off d i Hi. unfold xor_at.
  assert (Hl : length (firstn off s) = Nat.min off (length s)) by apply firstn_length.
  destruct (i <? off)%nat eqn:E.
  - apply Nat.ltb_lt in E. rewrite app_nth1 by lia. apply firstn_nth0; lia.
  - apply Nat.ltb_ge in E. rewrite app_nth2 by lia. rewrite Hl.
    replace (Nat.min off (length s)) with off by lia.
    rewrite nth_xor_into by (rewrite skipn_length; lia).
    rewrite skipn_nth0. replace (off + (i - off))%nat with i by lia. reflexivity.
Qed.

Lemma xor_at_app : forall s off a b,
  xor_at s off (a ++ b) = xor_at (xor_at s off a) (off + length a) b.
Proof.
  intros. apply nth_ext0; rewrite !length_xor_at; auto.
  intros i Hi. rewrite !nth_xor_at by (try rewrite length_xor_at; lia).
  destruct (i <? off)%nat eqn:E1.
  - apply Nat.ltb_lt in E1. replace (i <? off + length a)%nat with true; auto.
    symmetry. apply Nat.ltb_lt. lia.
  - apply Nat.ltb_ge in E1. destruct (i <? off + length a)%nat eqn:E2.
    + apply Nat.ltb_lt in E2. rewrite app_nth1 by lia. reflexivity.
    + apply Nat.ltb_ge in E2. rewrite app_nth2 by lia.
      rewrite (nth_overflow a) by lia. rewrite Z.lxor_0_r.
      replace (i - off - length a)%nat with (i - (off + length a))%nat by lia. reflexivity.
Qed.

Lemma xor_at_zeros : forall s off n, xor_at s off (zeros n) = s.
Proof.
  intros. apply nth_ext0; rewrite ?length_xor_at; auto. intros i Hi.
  rewrite nth_xor_at by auto. rewrite nth_zeros, Z.lxor_0_r. destruct (i <? off)%nat; auto.
Qed.

Lemma xor_at_comm : forall s o1 d1 o2 d2,
  xor_at (xor_at s o1 d1) o2 d2 = xor_at (xor_at s o2 d2) o1 d1.
Proof.
  intros. apply nth_ext0; rewrite !length_xor_at; auto. intros i Hi.
  rewrite !nth_xor_at by (rewrite ?length_xor_at; lia).
  destruct (i <? o1)%nat, (i <? o2)%nat; auto.
  rewrite !Z.lxor_assoc. f_equal. apply Z.lxor_comm.
Qed.

Lemma xor_at_twice : forall s o d, xor_at (xor_at s o d) o d = s.
Proof.
  intros. apply nth_ext0; rewrite !length_xor_at; auto. intros i Hi.
  rewrite !nth_xor_at by (rewrite ?length_xor_at; lia).
  destruct (i <? o)%nat; auto.
  rewrite Z.lxor_assoc, Z.lxor_nilpotent, Z.lxor_0_r. reflexivity.
Qed.

(** XOR keeps values below a power of two. *)
Lemma lxor_bound : forall n x y, 0 <= n -> 0 <= x < 2 ^ n -> 0 <= y < 2 ^ n ->
  0 <= Z.lxor x y < 2 ^ n.
Proof.
  intros n x y Hn Hx Hy.
  assert (H0 : 0 <= Z.lxor x y) by (apply Z.lxor_nonneg; lia).
  split; [exact H0|].
  destruct (Z.eq_dec (Z.lxor x y) 0) as [E|E]; [rewrite E; lia|].
  apply Z.log2_lt_pow2; [lia|].
  eapply Z.le_lt_trans; [apply Z.log2_lxor; lia|].
  destruct (Z.eq_dec x 0), (Z.eq_dec y 0); subst; rewrite ?Z.log2_nonpos by lia.
  - rewrite Z.lxor_0_r in E. lia.
  - rewrite Z.max_r by (apply Z.log2_nonneg). apply Z.log2_lt_pow2; lia.
  - rewrite Z.max_l by (apply Z.log2_nonneg). apply Z.log2_lt_pow2; lia.
  - apply Z.max_lub_lt; apply Z.log2_lt_pow2; lia.
Qed.

Lemma byte_lxor : forall x y, byte x -> byte y -> byte (Z.lxor x y).
Proof. intros. apply (lxor_bound 8); auto; lia. Qed.

Lemma bytes_xorl : forall a b, bytes a -> bytes b -> bytes (xorl a b).
Proof.
  induction a; intros b Ha Hb; simpl; [constructor|].
  destruct b; [constructor|]. inversion Ha; inversion Hb; subst.
  constructor; [apply byte_lxor; auto|apply IHa; auto].
Qed.

Lemma bytes_xor_into : forall a b, bytes a -> bytes b -> bytes (xor_into a b).
Proof.
  induction a; intros b Ha Hb; simpl; [constructor|].
  destruct b; [exact Ha|]. inversion Ha; inversion Hb; subst.
  constructor; [apply byte_lxor; auto|apply IHa; auto].
Qed.

Lemma bytes_firstn : forall n l, bytes l -> bytes (firstn n l).
Proof. intros. apply Forall_firstn'. auto. Qed.
Lemma bytes_skipn : forall n l, bytes l -> bytes (skipn n l).
Proof. intros. apply Forall_skipn'. auto. Qed.
Lemma bytes_app : forall a b, bytes a -> bytes b -> bytes (a ++ b).
Proof. intros. apply Forall_app'; auto. Qed.
Lemma bytes_app_inv : forall a b, bytes (a ++ b) -> bytes a /\ bytes b.
Proof. intros a b H. apply Forall_app in H. exact H. Qed.

Lemma bytes_xor_at : forall s o d, bytes s -> bytes d -> bytes (xor_at s o d).
Proof.
  intros. unfold xor_at. apply bytes_app; [apply bytes_firstn; auto|].
  apply bytes_xor_into; auto. apply bytes_skipn; auto.
Qed.

Lemma store_at_length : forall s off d, (off + length d <= length s)%nat ->
  length (store_at s off d) = length s.
Proof.
  intros. unfold store_at. rewrite !app_length, !firstn_length, skipn_length. lia.
Qed.

Lemma nth_store_at : forall s off d i, (off + length d <= length s)%nat ->
  nth i (store_at s off d) 0 =
  if ((off <=? i) && (i <? off + length d))%nat then nth (i - off) d 0 else nth i s 0.
Proof.
  intros s off d i H. unfold store_at.
  assert (L1 : length (firstn off s) = off) by (rewrite firstn_length; lia).
  rewrite (firstn_all2 d) by lia.
  destruct (off <=? i)%nat eqn:E1; simpl.
  - apply Nat.leb_le in E1. rewrite app_nth2 by lia. rewrite L1.
    destruct (i <? off + length d)%nat eqn:E2.
    + apply Nat.ltb_lt in E2. rewrite app_nth1 by lia. reflexivity.
    + apply Nat.ltb_ge in E2. rewrite app_nth2 by lia. rewrite skipn_nth0. f_equal. lia.
  - apply Nat.leb_gt in E1. rewrite app_nth1 by lia. apply firstn_nth0; lia.
Qed.

(** ** Chunking *)

Fixpoint full_aux (fuel r : nat) (m : list Z) : list (list Z) :=
  match fuel with
  | O => []
  | S f => if (r <=? length m)%nat then firstn r m :: full_aux f r (skipn r m) else []
  end.

(** The full [r]-byte blocks at the front of [m], and what is left. *)
Definition full_chunks (r : nat) (m : list Z) : list (list Z) := full_aux (length m) r m.
Definition tail_chunk (r : nat) (m : list Z) : list Z := skipn (r * (length m / r)) m.

Lemma full_aux_spec : forall r cs t fuel, (0 < r)%nat ->
  Forall (fun c : list Z => length c = r) cs -> (length t < r)%nat -> (length cs <= fuel)%nat ->
  full_aux fuel r (concat cs ++ t) = cs.
Proof.
  intros r cs. induction cs as [|c cs IH]; intros t fuel Hr Hcs Ht Hf; simpl in *.
  - destruct fuel; simpl; auto.
    destruct (r <=? length t)%nat eqn:E; auto. apply Nat.leb_le in E. lia.
  - destruct fuel; [lia|]. simpl. inversion Hcs as [|? ? Hc Hcs']; subst.
    rewrite <- app_assoc.
    replace (length c <=? length (c ++ concat cs ++ t))%nat with true
      by (symmetry; apply Nat.leb_le; rewrite app_length; lia).
    rewrite firstn_length_app, skipn_length_app, IH by (auto; lia). reflexivity.
Qed.

Lemma length_concat_const : forall r (cs : list (list Z)),
  Forall (fun c : list Z => length c = r) cs -> length (concat cs) = (r * length cs)%nat.
Proof.
  intros r cs H. induction H; simpl; [lia|]. rewrite app_length, IHForall, H. lia.
Qed.

Lemma full_chunks_unique : forall r cs t, (0 < r)%nat ->
  Forall (fun c : list Z => length c = r) cs -> (length t < r)%nat ->
  full_chunks r (concat cs ++ t) = cs /\ tail_chunk r (concat cs ++ t) = t.
Proof.
  intros r cs t Hr Hcs Ht.
  assert (Hl := length_concat_const r cs Hcs).
  split.
  - apply full_aux_spec; auto. rewrite app_length, Hl. nia.
  - unfold tail_chunk. rewrite app_length, Hl.
    replace ((r * length cs + length t) / r)%nat with (length cs).
    + rewrite <- Hl. apply skipn_length_app.
    + symmetry. rewrite Nat.mul_comm, Nat.div_add_l by lia. rewrite Nat.div_small by lia. lia.
Qed.

Lemma chunks_exist : forall r m, (0 < r)%nat ->
  exists cs t, m = concat cs ++ t /\ Forall (fun c : list Z => length c = r) cs /\ (length t < r)%nat.
Proof.
  intros r m Hr. remember (length m) as n eqn:Hn. revert m Hn.
  induction n as [n IH] using lt_wf_ind. intros m Hn.
  destruct (Nat.lt_ge_cases (length m) r).
  - exists [], m. auto.
  - destruct (IH (length (skipn r m))) with (m := skipn r m) as (cs & t & E & Hcs & Ht); auto.
    { rewrite skipn_length. lia. }
    exists (firstn r m :: cs), t. split; [|split; auto].
    + simpl. rewrite <- app_assoc, <- E. symmetry. apply firstn_skipn.
    + constructor; auto. rewrite firstn_length. lia.
Qed.

Lemma chunks_app : forall r m, (0 < r)%nat ->
  m = concat (full_chunks r m) ++ tail_chunk r m.
Proof.
  intros r m Hr. destruct (chunks_exist r m Hr) as (cs & t & E & Hcs & Ht).
  destruct (full_chunks_unique r cs t Hr Hcs Ht) as [A B]. rewrite E at 2 3. rewrite A, B. exact E.
Qed.

Lemma full_chunks_len : forall r m, (0 < r)%nat ->
  Forall (fun c : list Z => length c = r) (full_chunks r m).
Proof.
  intros r m Hr. destruct (chunks_exist r m Hr) as (cs & t & E & Hcs & Ht).
  destruct (full_chunks_unique r cs t Hr Hcs Ht) as [A B]. rewrite E, A. exact Hcs.
Qed.

Lemma tail_chunk_lt : forall r m, (0 < r)%nat -> (length (tail_chunk r m) < r)%nat.
Proof.
  intros r m Hr. destruct (chunks_exist r m Hr) as (cs & t & E & Hcs & Ht).
  destruct (full_chunks_unique r cs t Hr Hcs Ht) as [A B]. rewrite E, B. exact Ht.
Qed.

Lemma tail_chunk_length : forall r m, (0 < r)%nat ->
  length (tail_chunk r m) = (length m mod r)%nat.
Proof.
  intros. unfold tail_chunk. rewrite skipn_length.
  rewrite (Nat.div_mod (length m) r) at 1 by lia. lia.
Qed.

Lemma full_chunks_length : forall r m, (0 < r)%nat ->
  length (full_chunks r m) = (length m / r)%nat.
Proof.
  intros r m Hr. destruct (chunks_exist r m Hr) as (cs & t & E & Hcs & Ht).
  destruct (full_chunks_unique r cs t Hr Hcs Ht) as [A B]. rewrite E, A.
  rewrite app_length, (length_concat_const r cs Hcs), Nat.mul_comm, Nat.div_add_l by lia.
  rewrite Nat.div_small by lia. lia.
Qed.

Lemma full_chunks_small : forall r m, (0 < r)%nat -> (length m < r)%nat ->
  full_chunks r m = [] /\ tail_chunk r m = m.
Proof.
  intros r m Hr Hm. exact (full_chunks_unique r [] m Hr (Forall_nil _) Hm).
Qed.

Lemma full_chunks_cons : forall r c m, (0 < r)%nat -> length c = r ->
  full_chunks r (c ++ m) = c :: full_chunks r m /\ tail_chunk r (c ++ m) = tail_chunk r m.
Proof.
  intros r c m Hr Hc. destruct (chunks_exist r m Hr) as (cs & t & E & Hcs & Ht).
  destruct (full_chunks_unique r cs t Hr Hcs Ht) as [A B].
  destruct (full_chunks_unique r (c :: cs) t Hr) as [A' B']; auto.
  simpl in A', B'. rewrite <- app_assoc in A', B'. rewrite <- E in *.
  rewrite A, A', B, B'. auto.
Qed.

Lemma full_chunks_app : forall r a m, (0 < r)%nat ->
  full_chunks r (a ++ m) = full_chunks r a ++ full_chunks r (tail_chunk r a ++ m) /\
  tail_chunk r (a ++ m) = tail_chunk r (tail_chunk r a ++ m).
Proof.
  intros r a m Hr. destruct (chunks_exist r a Hr) as (cs & t & E & Hcs & Ht).
  destruct (full_chunks_unique r cs t Hr Hcs Ht) as [A B]. rewrite <- E in A, B.
  rewrite A, B. clear A B.
  destruct (chunks_exist r (t ++ m) Hr) as (cs2 & t2 & E2 & Hcs2 & Ht2).
  destruct (full_chunks_unique r cs2 t2 Hr Hcs2 Ht2) as [A2 B2]. rewrite <- E2 in A2, B2.
  rewrite A2, B2.
  destruct (full_chunks_unique r (cs ++ cs2) t2 Hr) as [A' B']; auto.
  { apply Forall_app. auto. }
  rewrite concat_app, <- app_assoc, <- E2, app_assoc, <- E in A', B'. auto.
Qed.

(** ** Integer encodings *)

Fixpoint le_bytes (n : nat) (x : Z) : list Z :=
  match n with
  | O => []
  | S k => (x mod 256) :: le_bytes k (x / 256)
  end.

Fixpoint le_val (l : list Z) : Z :=
  match l with
  | [] => 0
  | b :: l' => b + 256 * le_val l'
  end.

Definition be_bytes (n : nat) (x : Z) : list Z := rev (le_bytes n x).
Definition be_val (l : list Z) : Z := le_val (rev l).

Lemma length_le_bytes : forall n x, length (le_bytes n x) = n.
Proof. induction n; intros; simpl; auto. Qed.

Lemma length_be_bytes : forall n x, length (be_bytes n x) = n.
Proof. intros. unfold be_bytes. rewrite rev_length. apply length_le_bytes. Qed.

Lemma bytes_le_bytes : forall n x, bytes (le_bytes n x).
Proof.
  induction n; intros; simpl; constructor; [|apply IHn].
  unfold byte. apply Z.mod_pos_bound. lia.
Qed.

Lemma bytes_rev : forall l, bytes l -> bytes (rev l).
Proof. intros. apply Forall_rev. auto. Qed.

Lemma bytes_be_bytes : forall n x, bytes (be_bytes n x).
Proof. intros. apply bytes_rev, bytes_le_bytes. Qed.

Lemma pow256_S : forall n, 256 ^ Z.of_nat (S n) = 256 * 256 ^ Z.of_nat n.
Proof. intros. rewrite Nat2Z.inj_succ, Z.pow_succ_r; lia. Qed.

Lemma pow256_pos : forall n, 0 < 256 ^ Z.of_nat n.
Proof. intros. apply Z.pow_pos_nonneg; lia. Qed.

Lemma le_val_le_bytes : forall n x, le_val (le_bytes n x) = x mod 256 ^ Z.of_nat n.
Proof.
  induction n; intros x.
  - simpl. rewrite Z.mod_1_r. reflexivity.
  - cbn [le_bytes le_val]. rewrite IHn, pow256_S.
    pose proof (pow256_pos n).
    rewrite (Z.rem_mul_r x 256) by lia. reflexivity.
Qed.

Lemma le_val_bound : forall l, bytes l -> 0 <= le_val l < 256 ^ Z.of_nat (length l).
Proof.
  induction l; intros H.
  - simpl. lia.
  - inversion H; subst. specialize (IHl H3). cbn [le_val length]. rewrite pow256_S.
    unfold byte in H2. lia.
Qed.

Lemma le_bytes_le_val : forall l, bytes l -> le_bytes (length l) (le_val l) = l.
Proof.
  induction l; intros H; [reflexivity|]. inversion H as [|? ? Ha Hl]; subst.
  unfold byte in Ha. cbn [length le_val le_bytes].
  replace (a + 256 * le_val l) with (le_val l * 256 + a) by lia.
  f_equal.
  - rewrite Z.add_comm, Z.mod_add by lia. apply Z.mod_small; lia.
  - rewrite Z.div_add_l by lia. rewrite (Z.div_small a) by lia. rewrite Z.add_0_r. auto.
Qed.

Lemma le_val_inj : forall a b, bytes a -> bytes b -> length a = length b ->
  le_val a = le_val b -> a = b.
Proof.
  intros a b Ha Hb Hl He.
  rewrite <- (le_bytes_le_val a Ha), <- (le_bytes_le_val b Hb), Hl, He. reflexivity.
Qed.

Lemma be_val_be_bytes : forall n x, be_val (be_bytes n x) = x mod 256 ^ Z.of_nat n.
Proof. intros. unfold be_val, be_bytes. rewrite rev_involutive. apply le_val_le_bytes. Qed.

Lemma be_bytes_be_val : forall l, bytes l -> be_bytes (length l) (be_val l) = l.
Proof.
  intros l H. unfold be_val, be_bytes. rewrite <- (rev_length l).
  rewrite le_bytes_le_val by (apply bytes_rev; auto). apply rev_involutive.
Qed.

Lemma be_val_bound : forall l, bytes l -> 0 <= be_val l < 256 ^ Z.of_nat (length l).
Proof.
  intros. unfold be_val. rewrite <- rev_length. apply le_val_bound, bytes_rev; auto.
Qed.

Lemma le_bytes_mod : forall n x, le_bytes n (x mod 256 ^ Z.of_nat n) = le_bytes n x.
Proof.
  intros. apply le_val_inj; try apply bytes_le_bytes; rewrite ?length_le_bytes; auto.
  rewrite !le_val_le_bytes. apply Z.mod_mod. pose proof (pow256_pos n). lia.
Qed.

Lemma le_bytes_inj : forall n x y, 0 <= x < 256 ^ Z.of_nat n -> 0 <= y < 256 ^ Z.of_nat n ->
  le_bytes n x = le_bytes n y -> x = y.
Proof.
  intros n x y Hx Hy H. apply (f_equal le_val) in H. rewrite !le_val_le_bytes in H.
  rewrite !Z.mod_small in H by lia. exact H.
Qed.

Lemma be_bytes_inj : forall n x y, 0 <= x < 256 ^ Z.of_nat n -> 0 <= y < 256 ^ Z.of_nat n ->
  be_bytes n x = be_bytes n y -> x = y.
Proof.
  intros n x y Hx Hy H. apply (f_equal be_val) in H. rewrite !be_val_be_bytes in H.
  rewrite !Z.mod_small in H by lia. exact H.
Qed.

(** ** Error codes used by the API (Linux values, as negative return codes) *)
Definition EBADMSG : Z := -74.
Definition EINVAL : Z := -22.
Definition EOPNOTSUPP : Z := -95.
Definition EFAULT : Z := -14.
Definition EOVERFLOW : Z := -75.
Definition ENOMEM : Z := -12.

Lemma nth_map_seq : forall (f : nat -> Z) a n i d, (i < n)%nat -> nth i (map f (seq a n)) d = f (a + i)%nat.
Proof.
  intros f a n i d H. rewrite (nth_indep (map f (seq a n)) d (f O)) by (rewrite map_length, seq_length; lia).
  rewrite map_nth, seq_nth by lia. reflexivity.
Qed.

Lemma bytes_full_chunks : forall r m, bytes m -> Forall bytes (full_chunks r m).
Proof.
  intros r m. unfold full_chunks. generalize (length m) as f. intros f. revert m.
  induction f as [|f IH]; intros m H; cbn [full_aux]; [constructor|].
  destruct (r <=? length m)%nat; [|constructor]. constructor; [apply bytes_firstn; auto|].
  apply IH, bytes_skipn. auto.
Qed.

Lemma bytes_tail_chunk : forall r m, bytes m -> bytes (tail_chunk r m).
Proof. intros. apply bytes_skipn. auto. Qed.

Lemma rev_zeros : forall n, rev (zeros n) = zeros n.
Proof.
  intros n. apply nth_ext0; [apply rev_length|]. intros i Hi. rewrite rev_length in Hi.
  rewrite rev_nth by auto. rewrite !nth_zeros. reflexivity.
Qed.

Lemma firstn_zeros : forall k n, (k <= n)%nat -> firstn k (zeros n) = zeros k.
Proof.
  intros k n H. apply nth_ext0; [rewrite firstn_length, !length_zeros; lia|].
  intros i Hi. rewrite firstn_length in Hi. rewrite firstn_nth0 by lia. rewrite !nth_zeros. reflexivity.
Qed.


Lemma app_inj_1 : forall (A : Type) (a b c d : list A), length a = length b -> a ++ c = b ++ d -> a = b /\ c = d.
Proof.
  induction a as [|x a IH]; intros [|y b] c d Hl H; try discriminate Hl; [auto|].
  cbn in *. injection H as -> H. injection Hl as Hl. destruct (IH b c d Hl H) as [-> ->]. auto.
Qed.
Lemma app_inj_2 : forall (A : Type) (a b c d : list A), length c = length d -> a ++ c = b ++ d -> a = b /\ c = d.
Proof.
  intros A a b c d Hl H. apply app_inj_1; auto.
  apply (f_equal (@length A)) in H. rewrite !app_length in H. lia.
Qed.
