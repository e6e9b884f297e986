(** From machine butterflies that are right modulo q within bounds to the transform over Z_q. *)
From Verif Require Import Bytes Words PolyRing NttLoop.
Require Import Lia.

Definition within (B : Z) (l : list Z) : Prop := Forall (fun x => - B <= x <= B) l.

Lemma within_nth : forall B l i, 0 <= B -> within B l -> - B <= nth i l 0 <= B.
Proof.
  intros B l i HB H. destruct (Nat.lt_ge_cases i (length l)).
  - unfold within in H. rewrite Forall_forall in H. apply H. apply nth_In. auto.
  - rewrite nth_overflow by auto. lia.
Qed.
Lemma within_of_nth : forall B l, (forall i, (i < length l)%nat -> - B <= nth i l 0 <= B) -> within B l.
Proof.
  intros B l H. apply Forall_forall. intros x Hx. destruct (In_nth l x 0 Hx) as [i [Hi <-]]. auto.
Qed.
Lemma within_app : forall B a b, within B a -> within B b -> within B (a ++ b).
Proof. intros. apply Forall_app. auto. Qed.
Lemma within_firstn : forall B n a, within B a -> within B (firstn n a).
Proof. intros. apply Forall_firstn'. auto. Qed.
Lemma within_skipn : forall B n a, within B a -> within B (skipn n a).
Proof. intros. apply Forall_skipn'. auto. Qed.
Lemma within_weaken : forall B B' a, B <= B' -> within B a -> within B' a.
Proof. intros. eapply Forall_impl; [|eauto]. cbv beta. intros. lia. Qed.

Section Fwd.
  Variable q : Z.
  Hypothesis q_pos : 0 < q.
  Variable bf : Z -> Z -> Z -> Z * Z.
  Variables zs zeta : nat -> Z.
  Variable m top : nat.
  Variable bnd : nat -> Z.
  Variable maxd : nat.
  Hypothesis bnd_pos : forall l, 0 <= bnd l.
  Hypothesis bf_ok : forall l k x y, (l < maxd)%nat -> (1 <= k < top)%nat -> - bnd l <= x <= bnd l -> - bnd l <= y <= bnd l ->
    fst (bf (zs k) x y) mod q = (x + zeta k * y) mod q /\
    snd (bf (zs k) x y) mod q = (x + - zeta k * y) mod q /\
    - bnd (S l) <= fst (bf (zs k) x y) <= bnd (S l) /\ - bnd (S l) <= snd (bf (zs k) x y) <= bnd (S l).

  Theorem nttM_nttR : forall d l k f, (1 <= k)%nat -> ((k + 1) * 2 ^ d <= 2 * top)%nat -> (l + d <= maxd)%nat ->
    length f = (m * 2 ^ d)%nat -> within (bnd l) f ->
    M q (nttM bf zs m d k f) = M q (nttR m zeta d k f) /\ within (bnd (l + d)) (nttM bf zs m d k f) /\
    length (nttM bf zs m d k f) = (m * 2 ^ d)%nat.
  Proof.
    induction d; intros l k f Hk Ht Hl L W. rewrite Nat.add_0_r. auto.
    assert (E : (m * 2 ^ S d = m * 2 ^ d + m * 2 ^ d)%nat) by (cbn [Nat.pow]; lia). rewrite E in L.
    cbn [Nat.pow] in Ht. assert (HP := Nat.pow_nonzero 2 d ltac:(lia)).
    assert (K : (1 <= k < top)%nat) by nia.
    cbn [nttM nttR]. set (n := (m * 2 ^ d)%nat) in *.
    assert (L1 : length (firstn n f) = n) by (rewrite firstn_length; lia).
    assert (L2 : length (skipn n f) = n) by (rewrite skipn_length; lia).
    set (lo := bl bf (zs k) (firstn n f) (skipn n f)). set (hi := bh bf (zs k) (firstn n f) (skipn n f)).
    assert (Llo : length lo = n) by (unfold lo; rewrite length_bl; lia).
    assert (Lhi : length hi = n) by (unfold hi; rewrite length_bh; lia).
    assert (PT : forall i, (i < n)%nat -> let x := nth i f 0 in let y := nth (n + i) f 0 in
      nth i lo 0 mod q = (x + zeta k * y) mod q /\ nth i hi 0 mod q = (x + - zeta k * y) mod q /\
      - bnd (S l) <= nth i lo 0 <= bnd (S l) /\ - bnd (S l) <= nth i hi 0 <= bnd (S l)).
    { intros i Hi x y. unfold lo, hi. rewrite nth_bl, nth_bh by lia. rewrite nth_firstn0, nth_skipn0.
      destruct (Nat.ltb_spec i n); [|lia]. apply bf_ok; auto; try lia; apply within_nth; auto. }
    assert (Wlo : within (bnd (S l)) lo) by (apply within_of_nth; intros i Hi; apply PT; lia).
    assert (Whi : within (bnd (S l)) hi) by (apply within_of_nth; intros i Hi; apply PT; lia).
    assert (Mlo : M q lo = M q (phi (zeta k) n f)).
    { apply M_ext; auto. rewrite length_phi; auto. intros i Hi. rewrite nth_phi by lia. apply PT. lia. }
    assert (Mhi : M q hi = M q (phi (- zeta k) n f)).
    { apply M_ext; auto. rewrite length_phi; auto. intros i Hi. rewrite nth_phi by lia. apply PT. lia. }
    destruct (IHd (S l) (2 * k)%nat lo) as [A1 [A2 A3]]; auto; try lia.
    destruct (IHd (S l) (2 * k + 1)%nat hi) as [B1 [B2 B3]]; auto; try lia.
    rewrite !M_app, A1, B1. rewrite (M_nttR q q_pos m zeta d _ _ _ Mlo), (M_nttR q q_pos m zeta d _ _ _ Mhi).
    split; [reflexivity|]. replace (l + S d)%nat with (S l + d)%nat by lia. split. apply within_app; auto.
    rewrite app_length. lia.
  Qed.
End Fwd.

Section Inv.
  Variable q : Z.
  Hypothesis q_pos : 0 < q.
  Variable bf : Z -> Z -> Z -> Z * Z.
  Variables zs zinv : nat -> Z.
  Variable m top : nat.
  Hypothesis m_pos : (0 < m)%nat.
  Variable bnd : nat -> Z.
  Variable maxd : nat.
  Hypothesis bnd_pos : forall l, 0 <= bnd l.
  Hypothesis bf_ok : forall l k x y, (l < maxd)%nat -> (1 <= k < top)%nat -> - bnd l <= x <= bnd l -> - bnd l <= y <= bnd l ->
    fst (bf (zs (mir k)) x y) mod q = (x + y) mod q /\
    snd (bf (zs (mir k)) x y) mod q = (zinv k * (x - y)) mod q /\
    - bnd (S l) <= fst (bf (zs (mir k)) x y) <= bnd (S l) /\ - bnd (S l) <= snd (bf (zs (mir k)) x y) <= bnd (S l).

  Theorem inttM_inttR : forall d k f, (1 <= k)%nat -> ((k + 1) * 2 ^ d <= 2 * top)%nat -> (d <= maxd)%nat ->
    length f = (m * 2 ^ d)%nat -> within (bnd 0) f ->
    M q (inttM bf zs m d k f) = M q (inttR m zinv d k f) /\ within (bnd d) (inttM bf zs m d k f).
  Proof.
    induction d; intros k f Hk Ht Hl L W. auto.
    assert (E : (m * 2 ^ S d = m * 2 ^ d + m * 2 ^ d)%nat) by (cbn [Nat.pow]; lia). rewrite E in L.
    cbn [Nat.pow] in Ht. assert (HP := Nat.pow_nonzero 2 d ltac:(lia)).
    assert (K : (1 <= k < top)%nat) by nia.
    cbn [inttM inttR]. set (n := (m * 2 ^ d)%nat) in *.
    assert (L1 : length (firstn n f) = n) by (rewrite firstn_length; lia).
    assert (L2 : length (skipn n f) = n) by (rewrite skipn_length; lia).
    destruct (IHd (2 * k)%nat (firstn n f)) as [A1 A2]; auto; try lia. { apply within_firstn; auto. }
    destruct (IHd (2 * k + 1)%nat (skipn n f)) as [B1 B2]; auto; try lia. { apply within_skipn; auto. }
    assert (La : length (inttM bf zs m d (2 * k) (firstn n f)) = n) by (apply length_inttM; auto).
    assert (Lb : length (inttM bf zs m d (2 * k + 1) (skipn n f)) = n) by (apply length_inttM; auto).
    set (a := inttM bf zs m d (2 * k) (firstn n f)) in *. set (b := inttM bf zs m d (2 * k + 1) (skipn n f)) in *.
    set (lo := bl bf (zs (mir k)) a b). set (hi := bh bf (zs (mir k)) a b).
    assert (Llo : length lo = n) by (unfold lo; rewrite length_bl; lia).
    assert (Lhi : length hi = n) by (unfold hi; rewrite length_bh; lia).
    assert (PT : forall i, (i < n)%nat -> let x := nth i a 0 in let y := nth i b 0 in
      nth i lo 0 mod q = (x + y) mod q /\ nth i hi 0 mod q = (zinv k * (x - y)) mod q /\
      - bnd (S d) <= nth i lo 0 <= bnd (S d) /\ - bnd (S d) <= nth i hi 0 <= bnd (S d)).
    { intros i Hi x y. unfold lo, hi. rewrite nth_bl, nth_bh by lia.
      apply bf_ok; auto; try lia; apply within_nth; auto. }
    assert (Wlo : within (bnd (S d)) lo) by (apply within_of_nth; intros i Hi; apply PT; lia).
    assert (Whi : within (bnd (S d)) hi) by (apply within_of_nth; intros i Hi; apply PT; lia).
    split; [|apply within_app; auto]. rewrite !M_app. f_equal.
    - transitivity (M q (padd a b)); [|apply M_padd; auto].
      apply M_ext. rewrite length_padd; lia. intros i Hi. rewrite nth_padd by lia. apply PT. lia.
    - transitivity (M q (pscale (zinv k) (psub a b))); [|apply M_pscale; auto; apply M_psub; auto].
      apply M_ext. rewrite length_pscale, length_psub; lia. intros i Hi. rewrite nth_pscale, nth_psub by lia. apply PT. lia.
  Qed.
End Inv.

(** Two butterflies that agree within bounds give the same machine transform (used to remove the
    integer conversions). *)
Section Agree.
  Variables bf bf' : Z -> Z -> Z -> Z * Z.
  Variable zs : nat -> Z.
  Variable m : nat.
  Variable bnd : nat -> Z.
  Variable maxd : nat.
  Hypothesis bnd_pos : forall l, 0 <= bnd l.
  Hypothesis bf_ok : forall l k x y, (l < maxd)%nat -> - bnd l <= x <= bnd l -> - bnd l <= y <= bnd l ->
    bf (zs k) x y = bf' (zs k) x y /\
    - bnd (S l) <= fst (bf (zs k) x y) <= bnd (S l) /\ - bnd (S l) <= snd (bf (zs k) x y) <= bnd (S l).

  Lemma bl_agree : forall l k lo hi, (l < maxd)%nat -> within (bnd l) lo -> within (bnd l) hi ->
    bl bf (zs k) lo hi = bl bf' (zs k) lo hi /\ bh bf (zs k) lo hi = bh bf' (zs k) lo hi /\
    within (bnd (S l)) (bl bf (zs k) lo hi) /\ within (bnd (S l)) (bh bf (zs k) lo hi).
  Proof.
    intros l k lo. induction lo as [|x lo IH]; intros [|y hi] Hl H1 H2; cbn [bl bh]; try (repeat split; constructor; fail).
    destruct (IH hi Hl (Forall_inv_tail H1) (Forall_inv_tail H2)) as [A [B [C D]]].
    destruct (bf_ok l k x y Hl (Forall_inv H1) (Forall_inv H2)) as [E [F G]].
    rewrite <- A, <- B, <- E. repeat split; constructor; auto.
  Qed.
  Theorem nttM_agree : forall d l k f, (l + d <= maxd)%nat -> within (bnd l) f ->
    nttM bf zs m d k f = nttM bf' zs m d k f.
  Proof.
    induction d; intros l k f Hl W; auto. cbn [nttM].
    destruct (bl_agree l k (firstn (m * 2 ^ d) f) (skipn (m * 2 ^ d) f)) as [A [B [C D]]]; try lia.
    apply within_firstn; auto. apply within_skipn; auto.
    rewrite <- A, <- B. rewrite (IHd (S l)), (IHd (S l)); auto; lia.
  Qed.
  Theorem inttM_agree : forall d k f, (d <= maxd)%nat -> within (bnd 0) f ->
    inttM bf zs m d k f = inttM bf' zs m d k f /\ within (bnd d) (inttM bf zs m d k f).
  Proof.
    induction d; intros k f Hl W; auto. cbn [inttM].
    destruct (IHd (2 * k)%nat (firstn (m * 2 ^ d) f)) as [A1 A2]; [lia|apply within_firstn; auto|].
    destruct (IHd (2 * k + 1)%nat (skipn (m * 2 ^ d) f)) as [B1 B2]; [lia|apply within_skipn; auto|].
    rewrite <- A1, <- B1. destruct (bl_agree d (mir k) _ _ ltac:(lia) A2 B2) as [A [B [C D]]].
    rewrite <- A, <- B. split; auto. apply within_app; auto.
  Qed.
End Agree.
