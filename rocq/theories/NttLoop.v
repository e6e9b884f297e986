(** The loop nest shared by the forward and inverse transforms of ML-KEM
    (ml-kem/src/kyber_ntt.c:30-69) and ML-DSA (ml-dsa/src/dilithium_ntt.c:39-91),
    written with the array reads and writes of the C code, and the proof that
    the nest computes the recursive transform over the tree of blocks. *)
From Verif Require Import Bytes Words PolyRing.
Require Import Lia.

Section Loop.
  (** the loop body: from zeta, r[j] and r[j + len] to the new r[j] and r[j + len] *)
  Variable bf : Z -> Z -> Z -> Z * Z.
  (** the value read from the table for counter [k], and what happens to the counter *)
  Variable zs : nat -> Z.
  Variable step : nat -> nat.

  (** for (j = start; j < start + len; j++) { ... r[j] ... r[j + len] ... } *)
  Fixpoint loop_j (cnt j len : nat) (z : Z) (r : list Z) : list Z :=
    match cnt with
    | O => r
    | S c => let '(x, y) := bf z (nth j r 0) (nth (j + len) r 0) in
             loop_j c (S j) len z (upd (upd r (j + len) y) j x)
    end.

  (** for (start = 0; start < N; start = j + len) { zeta = zetas[k..]; ... }; the fuel is
      never exhausted, see [loop_start_ok] *)
  Fixpoint loop_start (fuel N len start k : nat) (r : list Z) : list Z * nat :=
    match fuel with
    | O => (r, k)
    | S f => if (start <? N)%nat
             then loop_start f N len (start + len + len) (step k) (loop_j len start len (zs k) r)
             else (r, k)
    end.

  (** for (len = len0; len >= lo; len >>= 1) *)
  Fixpoint loop_down (fuel N lo len k : nat) (r : list Z) : list Z :=
    match fuel with
    | O => r
    | S f => if (lo <=? len)%nat
             then let '(r', k') := loop_start N N len 0 k r in loop_down f N lo (len / 2) k' r'
             else r
    end.

  (** for (len = len0; len < hi; len <<= 1) *)
  Fixpoint loop_up (fuel N hi len k : nat) (r : list Z) : list Z :=
    match fuel with
    | O => r
    | S f => if (len <? hi)%nat
             then let '(r', k') := loop_start N N len 0 k r in loop_up f N hi (2 * len) k' r'
             else r
    end.

  Fixpoint bl (z : Z) (lo hi : list Z) : list Z :=
    match lo, hi with x :: lo', y :: hi' => fst (bf z x y) :: bl z lo' hi' | _, _ => [] end.
  Fixpoint bh (z : Z) (lo hi : list Z) : list Z :=
    match lo, hi with x :: lo', y :: hi' => snd (bf z x y) :: bh z lo' hi' | _, _ => [] end.

  Lemma length_bl : forall lo z hi, length lo = length hi -> length (bl z lo hi) = length lo.
  Proof. induction lo; intros z [|y hi] L; cbn in *; try lia. rewrite IHlo; lia. Qed.
  Lemma length_bh : forall lo z hi, length lo = length hi -> length (bh z lo hi) = length lo.
  Proof. induction lo; intros z [|y hi] L; cbn in *; try lia. rewrite IHlo; lia. Qed.
  Lemma nth_bl : forall lo z hi i, length lo = length hi -> (i < length lo)%nat ->
    nth i (bl z lo hi) 0 = fst (bf z (nth i lo 0) (nth i hi 0)).
  Proof. induction lo; intros z [|y hi] [|i] L Hi; cbn in *; try lia; auto. apply IHlo; lia. Qed.
  Lemma nth_bh : forall lo z hi i, length lo = length hi -> (i < length lo)%nat ->
    nth i (bh z lo hi) 0 = snd (bf z (nth i lo 0) (nth i hi 0)).
  Proof. induction lo; intros z [|y hi] [|i] L Hi; cbn in *; try lia; auto. apply IHlo; lia. Qed.

  Lemma upd_app : forall a x y b, upd (a ++ x :: b) (length a) y = a ++ y :: b.
  Proof. induction a; intros; cbn; auto. rewrite IHa. reflexivity. Qed.

  Lemma loop_j_gen : forall lo hi pre dl dh post z len,
    length lo = length hi -> length dl = length dh -> (length dl + length lo = len)%nat ->
    loop_j (length lo) (length pre + length dl) len z (pre ++ (dl ++ lo) ++ (dh ++ hi) ++ post) =
    pre ++ (dl ++ bl z lo hi) ++ (dh ++ bh z lo hi) ++ post.
  Proof.
    induction lo as [|x lo IH]; intros [|y hi] pre dl dh post z len L1 L2 L3; cbn [length] in *; try lia.
    - reflexivity.
    - cbn [loop_j bl bh].
      set (r := pre ++ (dl ++ x :: lo) ++ (dh ++ y :: hi) ++ post).
      assert (R1 : r = (pre ++ dl) ++ x :: (lo ++ dh ++ y :: hi ++ post)).
      { unfold r. repeat rewrite <- ?app_assoc, <- ?app_comm_cons. reflexivity. }
      assert (R2 : r = (pre ++ dl ++ x :: lo ++ dh) ++ y :: (hi ++ post)).
      { unfold r. repeat rewrite <- ?app_assoc, <- ?app_comm_cons. reflexivity. }
      assert (I1 : (length pre + length dl)%nat = length (pre ++ dl)) by (rewrite app_length; lia).
      assert (I2 : (length pre + length dl + len)%nat = length (pre ++ dl ++ x :: lo ++ dh)).
      { rewrite !app_length. cbn [length]. rewrite app_length. lia. }
      assert (N1 : nth (length pre + length dl) r 0 = x) by (rewrite R1, I1; apply nth_middle).
      assert (N2 : nth (length pre + length dl + len) r 0 = y) by (rewrite R2, I2; apply nth_middle).
      rewrite N1, N2. destruct (bf z x y) as [x' y'] eqn:E. cbn [fst snd].
      assert (U2 : upd r (length pre + length dl + len) y' = (pre ++ dl) ++ x :: (lo ++ dh ++ y' :: hi ++ post)).
      { rewrite R2, I2, upd_app. repeat rewrite <- ?app_assoc, <- ?app_comm_cons. reflexivity. }
      rewrite U2, I1, upd_app.
      specialize (IH hi pre (dl ++ [x']) (dh ++ [y']) post z len).
      rewrite !app_length in IH. cbn [length] in IH.
      replace (S (length (pre ++ dl))) with (length pre + (length dl + 1))%nat by (rewrite app_length; lia).
      transitivity (loop_j (length lo) (length pre + (length dl + 1)) len z (pre ++ ((dl ++ [x']) ++ lo) ++ ((dh ++ [y']) ++ hi) ++ post)).
      + f_equal. repeat rewrite <- ?app_assoc, <- ?app_comm_cons. reflexivity.
      + rewrite IH by lia. repeat rewrite <- ?app_assoc, <- ?app_comm_cons. reflexivity.
  Qed.

  Lemma loop_j_block : forall lo hi pre post z, length lo = length hi ->
    loop_j (length lo) (length pre) (length lo) z (pre ++ lo ++ hi ++ post) = pre ++ bl z lo hi ++ bh z lo hi ++ post.
  Proof.
    intros lo hi pre post z L.
    assert (H := loop_j_gen lo hi pre [] [] post z (length lo) L eq_refl ltac:(cbn; lia)).
    cbn [app length] in H. rewrite Nat.add_0_r in H. exact H.
  Qed.

  (** one pass over consecutive blocks, each given as its two halves *)
  Fixpoint pass (k : nat) (Bs : list (list Z * list Z)) : list (list Z * list Z) :=
    match Bs with
    | [] => []
    | (lo, hi) :: Bs' => (bl (zs k) lo hi, bh (zs k) lo hi) :: pass (step k) Bs'
    end.
  Fixpoint flat (Bs : list (list Z * list Z)) : list Z :=
    match Bs with [] => [] | (lo, hi) :: Bs' => lo ++ hi ++ flat Bs' end.
  Fixpoint steps (n k : nat) : nat := match n with O => k | S n' => steps n' (step k) end.

  Lemma loop_start_ok : forall Bs fuel N len pre k,
    (0 < len)%nat -> Forall (fun p => length (fst p) = len /\ length (snd p) = len) Bs ->
    (N = length pre + length Bs * (len + len))%nat -> (length Bs < fuel)%nat ->
    loop_start fuel N len (length pre) k (pre ++ flat Bs) = (pre ++ flat (pass k Bs), steps (length Bs) k).
  Proof.
    induction Bs as [|[lo hi] Bs IH]; intros fuel N len pre k Hl HF HN Hf; (destruct fuel as [|fuel]; [cbn in Hf; lia|]).
    - cbn [loop_start length] in *. destruct (Nat.ltb_spec (length pre) N); [lia|]. reflexivity.
    - cbn [loop_start]. cbn [length] in HN, Hf.
      destruct (Forall_inv HF) as [H1 H2]. cbn [fst snd] in H1, H2. apply Forall_inv_tail in HF.
      destruct (Nat.ltb_spec (length pre) N); [|lia]. cbn [flat pass length steps].
      assert (J : loop_j len (length pre) len (zs k) (pre ++ lo ++ hi ++ flat Bs) =
        pre ++ bl (zs k) lo hi ++ bh (zs k) lo hi ++ flat Bs).
      { rewrite <- H1 at 1 2. apply loop_j_block. lia. }
      rewrite J. clear J.
      specialize (IH fuel N len (pre ++ bl (zs k) lo hi ++ bh (zs k) lo hi) (step k)).
      rewrite !app_length, length_bl, length_bh in IH by lia.
      replace (length pre + (length lo + length lo))%nat with (length pre + len + len)%nat in IH by lia.
      rewrite <- !app_assoc in IH. apply IH; auto; lia.
  Qed.
End Loop.

Lemma length_flat : forall Bs len, Forall (fun p => length (fst p) = len /\ length (snd p) = len) Bs ->
  length (flat Bs) = (length Bs * (len + len))%nat.
Proof.
  induction Bs as [|[lo hi] Bs IH]; intros len H; auto.
  destruct (Forall_inv H) as [H1 H2]. apply Forall_inv_tail in H. cbn [fst snd] in *.
  cbn [flat length]. rewrite !app_length, (IH len H). lia.
Qed.

(** ** Forward: the nest computes the recursion over the tree *)
Section Forward.
  Variable bf : Z -> Z -> Z -> Z * Z.
  Variable zs : nat -> Z.
  Variable m : nat.
  Hypothesis m_pos : (0 < m)%nat.

  Fixpoint nttM (d k : nat) (f : list Z) : list Z :=
    match d with
    | O => f
    | S d' => let n := (m * 2 ^ d')%nat in
              nttM d' (2 * k) (bl bf (zs k) (firstn n f) (skipn n f)) ++
              nttM d' (2 * k + 1) (bh bf (zs k) (firstn n f) (skipn n f))
    end.
  Fixpoint nttMs (d k : nat) (Bs : list (list Z)) : list Z :=
    match Bs with [] => [] | B :: r => nttM d k B ++ nttMs d (S k) r end.

  Definition halves (n : nat) (B : list Z) : list Z * list Z := (firstn n B, skipn n B).
  Fixpoint unpair (Bs : list (list Z * list Z)) : list (list Z) :=
    match Bs with [] => [] | (a, b) :: r => a :: b :: unpair r end.

  Lemma flat_halves : forall n Bs, flat (map (halves n) Bs) = concat Bs.
  Proof. induction Bs; cbn; auto. rewrite app_assoc, firstn_skipn, IHBs. reflexivity. Qed.
  Lemma flat_unpair : forall Bs, flat Bs = concat (unpair Bs).
  Proof. induction Bs as [|[a b] Bs IH]; cbn; auto. rewrite IH. reflexivity. Qed.
  Lemma length_unpair : forall Bs, length (unpair Bs) = (2 * length Bs)%nat.
  Proof. induction Bs as [|[a b] Bs IH]; cbn [unpair length]; auto. rewrite IH. lia. Qed.
  Lemma length_pass : forall Bs k st, length (pass bf zs st k Bs) = length Bs.
  Proof. induction Bs as [|[a b] Bs IH]; intros; cbn [pass length]; auto. Qed.
  Lemma steps_S : forall n k, steps S n k = (k + n)%nat.
  Proof. induction n; intros; cbn [steps]. lia. rewrite IHn. lia. Qed.

  Lemma nttMs_pass : forall d Bs k, Forall (fun B => length B = (m * 2 ^ S d)%nat) Bs ->
    nttMs d (2 * k) (unpair (pass bf zs S k (map (halves (m * 2 ^ d)) Bs))) = nttMs (S d) k Bs /\
    Forall (fun B => length B = (m * 2 ^ d)%nat) (unpair (pass bf zs S k (map (halves (m * 2 ^ d)) Bs))).
  Proof.
    induction Bs as [|B Bs IH]; intros k H. split; [reflexivity|constructor].
    assert (HB := Forall_inv H). apply Forall_inv_tail in H. cbv beta in HB.
    assert (E : (m * 2 ^ S d = m * 2 ^ d + m * 2 ^ d)%nat) by (cbn [Nat.pow]; lia). rewrite E in HB.
    destruct (IH (S k) H) as [I1 I2].
    cbn [map pass halves unpair nttMs nttM]. set (n := (m * 2 ^ d)%nat) in *.
    assert (L1 : length (firstn n B) = n) by (rewrite firstn_length; lia).
    assert (L2 : length (skipn n B) = n) by (rewrite skipn_length; lia).
    split.
    - rewrite <- I1. rewrite <- app_assoc. f_equal. replace (2 * k + 1)%nat with (S (2 * k)) by lia. f_equal.
      f_equal. lia.
    - constructor. rewrite length_bl; lia. constructor. rewrite length_bh; lia. exact I2.
  Qed.

  Theorem loop_down_ok : forall d fuel N k Bs, (0 < k)%nat -> length Bs = k ->
    Forall (fun B => length B = (m * 2 ^ d)%nat) Bs -> N = (k * (m * 2 ^ d))%nat -> (d < fuel)%nat ->
    loop_down bf zs S fuel N m (m * 2 ^ d / 2) k (concat Bs) = nttMs d k Bs.
  Proof.
    induction d; intros fuel N k Bs Hk LB HF HN Hf; (destruct fuel as [|fuel]; [lia|]); cbn [loop_down].
    - cbn [Nat.pow]. rewrite Nat.mul_1_r in *. destruct (Nat.leb_spec m (m / 2)).
      + pose proof (Nat.div_lt m 2). lia.
      + clear. revert k. induction Bs; intros; cbn [concat nttMs nttM]; auto. rewrite <- IHBs. reflexivity.
    - assert (E : (m * 2 ^ S d = m * 2 ^ d + m * 2 ^ d)%nat) by (cbn [Nat.pow]; lia).
      assert (HP := Nat.pow_nonzero 2 d ltac:(lia)).
      assert (D : (m * 2 ^ S d / 2 = m * 2 ^ d)%nat) by (rewrite E; replace (m * 2 ^ d + m * 2 ^ d)%nat with (m * 2 ^ d * 2)%nat by lia; apply Nat.div_mul; lia).
      rewrite D. set (n := (m * 2 ^ d)%nat) in *.
      destruct (Nat.leb_spec m n); [|unfold n in *; nia].
      assert (P := loop_start_ok bf zs S (map (halves n) Bs) N N n [] k).
      cbn [length app] in P. rewrite flat_halves, map_length in P.
      rewrite P; clear P.
      + rewrite flat_unpair, steps_S, LB.
        destruct (nttMs_pass d Bs k HF) as [Q1 Q2]. fold n in Q1, Q2. rewrite <- Q1.
        replace (k + k)%nat with (2 * k)%nat by lia. rewrite E in HN. apply IHd; auto; try lia.
        rewrite length_unpair, length_pass, map_length. lia.
      + unfold n. nia.
      + apply Forall_map. eapply Forall_impl; [|exact HF]. intros B HB. cbv beta in HB. cbn [fst snd halves].
        rewrite firstn_length, skipn_length. lia.
      + rewrite E in HN. lia.
      + rewrite E in HN. assert (0 < n)%nat by (unfold n; nia). nia.
  Qed.

  Theorem loop_down_top : forall d fuel f, length f = (m * 2 ^ d)%nat -> (d < fuel)%nat ->
    loop_down bf zs S fuel (m * 2 ^ d) m (m * 2 ^ d / 2) 1 f = nttM d 1 f.
  Proof.
    intros d fuel f L Hf. rewrite <- (app_nil_r f) at 1. change (f ++ []) with (concat [f]).
    rewrite loop_down_ok; auto; try lia. cbn [nttMs]. apply app_nil_r.
  Qed.
End Forward.

(** ** Inverse *)
Section Inverse.
  Variable bf : Z -> Z -> Z -> Z * Z.
  Variable zs : nat -> Z.
  Variable m : nat.
  Hypothesis m_pos : (0 < m)%nat.

  (** the counter runs backwards through each level *)
  Definition mir (k : nat) : nat := (3 * 2 ^ Nat.log2 k - 1 - k)%nat.

  Fixpoint inttM (d k : nat) (f : list Z) : list Z :=
    match d with
    | O => f
    | S d' =>
      let a := inttM d' (2 * k) (firstn (m * 2 ^ d') f) in
      let b := inttM d' (2 * k + 1) (skipn (m * 2 ^ d') f) in
      bl bf (zs (mir k)) a b ++ bh bf (zs (mir k)) a b
    end.

  Lemma length_inttM : forall d k f, length f = (m * 2 ^ d)%nat -> length (inttM d k f) = (m * 2 ^ d)%nat.
  Proof.
    induction d; intros k f L; auto.
    assert (E : (m * 2 ^ S d = m * 2 ^ d + m * 2 ^ d)%nat) by (cbn [Nat.pow]; lia). rewrite E in *.
    cbn [inttM]. set (n := (m * 2 ^ d)%nat) in *.
    assert (L1 : length (firstn n f) = n) by (rewrite firstn_length; lia).
    assert (L2 : length (skipn n f) = n) by (rewrite skipn_length; lia).
    rewrite app_length, length_bl, length_bh; rewrite !IHd by auto; lia.
  Qed.

  Fixpoint inttPs (d k : nat) (Bs : list (list Z * list Z)) : list (list Z * list Z) :=
    match Bs with [] => [] | (a, b) :: r => (inttM d (2 * k) a, inttM d (2 * k + 1) b) :: inttPs d (S k) r end.
  Fixpoint inttMs (d k : nat) (Bs : list (list Z)) : list Z :=
    match Bs with [] => [] | B :: r => inttM d k B ++ inttMs d (S k) r end.

  Lemma steps_pred : forall n k, steps pred n k = (k - n)%nat.
  Proof. induction n; intros; cbn [steps]. lia. rewrite IHn. lia. Qed.

  Definition glue (p : list Z * list Z) : list Z := fst p ++ snd p.

  Lemma pass_pred : forall e d Bs k, (2 ^ e <= k)%nat -> (k + length Bs = 2 ^ S e)%nat ->
    Forall (fun p => length (fst p) = (m * 2 ^ d)%nat /\ length (snd p) = (m * 2 ^ d)%nat) Bs ->
    flat (pass bf zs pred (3 * 2 ^ e - 1 - k) (inttPs d k Bs)) = inttMs (S d) k (map glue Bs).
  Proof.
    induction Bs as [|[a b] Bs IH]; intros k Hk Hl H. reflexivity.
    destruct (Forall_inv H) as [H1 H2]. apply Forall_inv_tail in H. cbn [fst snd] in *.
    cbn [length] in Hl. cbn [Nat.pow] in Hl.
    cbn [inttPs pass flat map inttMs inttM]. change (glue (a, b)) with (a ++ b).
    assert (LG : Nat.log2 k = e) by (apply Nat.log2_unique; cbn [Nat.pow]; lia).
    assert (F1 : firstn (m * 2 ^ d) (a ++ b) = a) by (rewrite <- H1; apply firstn_length_app).
    assert (F2 : skipn (m * 2 ^ d) (a ++ b) = b) by (rewrite <- H1; apply skipn_length_app).
    rewrite F1, F2. unfold mir. rewrite LG, <- app_assoc. f_equal. f_equal.
    rewrite <- (IH (S k)); auto; try (cbn [Nat.pow]; lia).
    replace (pred (3 * 2 ^ e - 1 - k)) with (3 * 2 ^ e - 1 - S k)%nat by lia. reflexivity.
  Qed.

  (** consecutive blocks taken two by two *)
  Lemma pairs_exist : forall n (Bs : list (list Z)), length Bs = (2 * n)%nat -> exists Ps, Bs = unpair Ps /\ length Ps = n.
  Proof.
    induction n; intros Bs H. exists []. destruct Bs; auto. cbn in H; lia.
    destruct Bs as [|a [|b Bs]]; cbn [length] in H; try lia.
    destruct (IHn Bs ltac:(lia)) as [Ps [-> L]]. exists ((a, b) :: Ps). split; auto. cbn. lia.
  Qed.
  Lemma inttMs_pairs : forall d Ps k, inttMs d (2 * k) (unpair Ps) = flat (inttPs d k Ps).
  Proof.
    induction Ps as [|[a b] Ps IH]; intros k; auto. cbn [unpair inttMs inttPs flat].
    rewrite <- IH. replace (S (2 * k)) with (2 * k + 1)%nat by lia. do 4 f_equal. lia.
  Qed.
  Lemma concat_glue : forall Ps, concat (map glue Ps) = concat (unpair Ps).
  Proof. induction Ps as [|[a b] Ps IH]; cbn; auto. rewrite IH, app_assoc. reflexivity. Qed.
  Lemma length_inttPs : forall Ps d k, length (inttPs d k Ps) = length Ps.
  Proof. induction Ps as [|[a b] Ps IH]; intros; cbn; auto. Qed.

  Lemma loop_up_gen : forall e d fuel N Bs, length Bs = (2 ^ e)%nat ->
    Forall (fun B => length B = (m * 2 ^ d)%nat) Bs -> N = (2 ^ e * (m * 2 ^ d))%nat -> (e < fuel)%nat ->
    loop_up bf zs pred fuel N N (m * 2 ^ d) (2 ^ e - 1) (inttMs d (2 ^ e) Bs) = inttM (d + e) 1 (concat Bs).
  Proof.
    induction e; intros d fuel N Bs LB HF HN Hf; (destruct fuel as [|fuel]; [lia|]); cbn [loop_up].
    - cbn [Nat.pow] in *. destruct (Nat.ltb_spec (m * 2 ^ d) N); [lia|].
      destruct Bs as [|B [|? ?]]; cbn in LB; try lia. cbn [inttMs concat]. rewrite !app_nil_r, Nat.add_0_r. reflexivity.
    - assert (HP := Nat.pow_nonzero 2 e ltac:(lia)). assert (HQ := Nat.pow_nonzero 2 d ltac:(lia)).
      assert (E : (2 ^ S e = 2 * 2 ^ e)%nat) by reflexivity.
      assert (E2 : (m * 2 ^ S d = 2 * (m * 2 ^ d))%nat) by (cbn [Nat.pow]; lia).
      rewrite E in *. set (n := (m * 2 ^ d)%nat) in *. assert (Hn : (0 < n)%nat) by (unfold n; nia).
      destruct (Nat.ltb_spec n N); [|nia].
      destruct (pairs_exist (2 ^ e) Bs LB) as [Ps [-> LP]].
      rewrite inttMs_pairs.
      assert (HFP : Forall (fun p => length (fst p) = n /\ length (snd p) = n) Ps).
      { clear - HF. induction Ps as [|[a b] Ps IH]; constructor.
        - split; [exact (Forall_inv HF)|exact (Forall_inv (Forall_inv_tail HF))].
        - apply IH. exact (Forall_inv_tail (Forall_inv_tail HF)). }
      assert (HFI : forall k, Forall (fun p => length (fst p) = n /\ length (snd p) = n) (inttPs d k Ps)).
      { clear - HFP m_pos. induction Ps as [|[a b] Ps IH]; intros k; constructor.
        - destruct (Forall_inv HFP). cbn [fst snd] in *. split; apply length_inttM; auto.
        - apply IH. exact (Forall_inv_tail HFP). }
      assert (P := loop_start_ok bf zs pred (inttPs d (2 ^ e) Ps) N N n [] (2 * 2 ^ e - 1) Hn (HFI _)).
      cbn [length app] in P. rewrite length_inttPs, LP in P. rewrite P; clear P; try nia.
      rewrite steps_pred.
      assert (PP := pass_pred e d Ps (2 ^ e) (le_n _) ltac:(cbn [Nat.pow]; lia) HFP).
      replace (3 * 2 ^ e - 1 - 2 ^ e)%nat with (2 * 2 ^ e - 1)%nat in PP by lia.
      rewrite PP. clear PP.
      replace (2 * 2 ^ e - 1 - 2 ^ e)%nat with (2 ^ e - 1)%nat by lia.
      rewrite <- E2. rewrite IHe.
      + rewrite concat_glue. f_equal. lia.
      + rewrite map_length. auto.
      + apply Forall_map. eapply Forall_impl; [|exact HFP]. intros [a b] [H1 H2]. cbn [fst snd] in *.
        unfold glue. cbn [fst snd]. rewrite app_length, E2. lia.
      + rewrite E2. nia.
      + lia.
  Qed.

  Lemma chop : forall n m' (f : list Z), length f = (n * m')%nat ->
    exists Bs, length Bs = n /\ Forall (fun B => length B = m') Bs /\ concat Bs = f.
  Proof.
    induction n; intros m' f L.
    - exists []. destruct f; cbn in L; try lia. auto.
    - destruct (IHn m' (skipn m' f)) as [Bs [L1 [F C]]]. rewrite skipn_length. lia.
      exists (firstn m' f :: Bs). split; [cbn; lia|]. split. constructor; auto. rewrite firstn_length. lia.
      cbn. rewrite C. apply firstn_skipn.
  Qed.

  Theorem loop_up_top : forall e fuel f, length f = (m * 2 ^ e)%nat -> (e < fuel)%nat ->
    loop_up bf zs pred fuel (m * 2 ^ e) (m * 2 ^ e) m (2 ^ e - 1) f = inttM e 1 f.
  Proof.
    intros e fuel f L Hf. destruct (chop (2 ^ e) m f ltac:(lia)) as [Bs [L1 [F C]]].
    assert (I : forall k, inttMs 0 k Bs = concat Bs).
    { clear. induction Bs; intros; cbn; auto. rewrite IHBs. reflexivity. }
    assert (G := loop_up_gen e 0 fuel (m * 2 ^ e)%nat Bs L1).
    cbn [Nat.pow] in G. rewrite Nat.mul_1_r, I, C in G. apply G; auto. lia.
  Qed.
End Inverse.
