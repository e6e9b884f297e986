(** AES: the table version and the table-free version against FIPS 197. *)
From Verif Require Import Bytes Words ZUtil AesSpec AesModel.
From Coq Require Import Btauto.

(** * Exhaustive reasoning over bytes *)
Lemma in_all_bytes : forall b, byte b -> In b all_bytes.
Proof.
  intros b H. unfold byte in H. unfold all_bytes. apply in_map_iff. exists (Z.to_nat b).
  split; [lia|]. apply in_seq. lia.
Qed.
Lemma forall_byte : forall f, forallb f all_bytes = true -> forall b, byte b -> f b = true.
Proof. intros f H b Hb. rewrite forallb_forall in H. apply H, in_all_bytes, Hb. Qed.
Lemma forall_byte_eq : forall f g, forallb (fun b => f b =? g b) all_bytes = true ->
  forall b, byte b -> f b = g b.
Proof. intros f g H b Hb. apply Z.eqb_eq. exact (forall_byte _ H b Hb). Qed.
Lemma forall_byte2_eq : forall f g,
  forallb (fun a => forallb (fun b => f a b =? g a b) all_bytes) all_bytes = true ->
  forall a b, byte a -> byte b -> f a b = g a b.
Proof.
  intros f g H a b Ha Hb. apply Z.eqb_eq.
  exact (forall_byte _ (forall_byte (fun a => forallb (fun b => f a b =? g a b) all_bytes) H a Ha) b Hb).
Qed.
Definition byteb (x : Z) : bool := (0 <=? x) && (x <? 256).
Lemma byteb_byte : forall x, byteb x = true -> byte x.
Proof. intros x H. unfold byteb in H. unfold byte. lia. Qed.
Lemma forall_byte_byte : forall f, forallb (fun b => byteb (f b)) all_bytes = true ->
  forall b, byte b -> byte (f b).
Proof. intros f H b Hb. apply byteb_byte. exact (forall_byte (fun b => byteb (f b)) H b Hb). Qed.

Lemma sbox_spec : forall b, byte b -> getSBoxValue b = SBOX b.
Proof. apply forall_byte_eq. vm_compute. reflexivity. Qed.
Lemma sbox_byte : forall b, byte b -> byte (getSBoxValue b).
Proof. apply forall_byte_byte. vm_compute. reflexivity. Qed.
Lemma rsbox_byte : forall b, byte b -> byte (getSBoxInvert b).
Proof. apply forall_byte_byte. vm_compute. reflexivity. Qed.
Lemma rsbox_sbox : forall b, byte b -> getSBoxInvert (getSBoxValue b) = b.
Proof. apply (forall_byte_eq (fun b => getSBoxInvert (getSBoxValue b)) (fun b => b)). vm_compute. reflexivity. Qed.
Lemma sbox_rsbox : forall b, byte b -> getSBoxValue (getSBoxInvert b) = b.
Proof. apply (forall_byte_eq (fun b => getSBoxValue (getSBoxInvert b)) (fun b => b)). vm_compute. reflexivity. Qed.
Lemma scr_sbox : forall b, byte b -> aes_sub_byte b = getSBoxValue b.
Proof. apply forall_byte_eq. vm_compute. reflexivity. Qed.
Lemma scr_rsbox : forall b, byte b -> aes_sub_byte_inv b = getSBoxInvert b.
Proof. apply forall_byte_eq. vm_compute. reflexivity. Qed.
Lemma xtime_byte : forall b, byte b -> byte (xtime b).
Proof. apply forall_byte_byte. vm_compute. reflexivity. Qed.
Lemma xtime_lxor : forall a b, byte a -> byte b -> xtime (Z.lxor a b) = Z.lxor (xtime a) (xtime b).
Proof. apply (forall_byte2_eq (fun a b => xtime (Z.lxor a b)) (fun a b => Z.lxor (xtime a) (xtime b))). vm_compute. reflexivity. Qed.
Lemma gmul1 : forall b, byte b -> gmul 1 b = b.
Proof. apply (forall_byte_eq (gmul 1) (fun b => b)). vm_compute. reflexivity. Qed.
Lemma gmul2 : forall b, byte b -> gmul 2 b = xtime b.
Proof. apply forall_byte_eq. vm_compute. reflexivity. Qed.
Lemma gmul3 : forall b, byte b -> gmul 3 b = Z.lxor (xtime b) b.
Proof. apply (forall_byte_eq (gmul 3) (fun b => Z.lxor (xtime b) b)). vm_compute. reflexivity. Qed.
Definition is_inv_coeff (c : Z) : Prop := c = 0x0e \/ c = 0x0b \/ c = 0x0d \/ c = 0x09.
Definition mulc (c x : Z) : Z :=
  Z.lxor (if Z.testbit c 0 then x else 0) (Z.lxor (if Z.testbit c 1 then xtime x else 0)
    (Z.lxor (if Z.testbit c 2 then xtime (xtime x) else 0) (if Z.testbit c 3 then xtime (xtime (xtime x)) else 0))).
Lemma Multiply_mulc : forall c, is_inv_coeff c -> forall a, byte a -> Multiply a c = mulc c a.
Proof.
  intros c Hc. apply (forall_byte_eq (fun a => Multiply a c) (mulc c)).
  destruct Hc as [->|[->|[->| ->]]]; vm_compute; reflexivity.
Qed.
Lemma Multiply_lxor : forall c, is_inv_coeff c -> forall a b, byte a -> byte b ->
  Multiply (Z.lxor a b) c = Z.lxor (Multiply a c) (Multiply b c).
Proof.
  intros c Hc a b Ha Hb. rewrite !Multiply_mulc by (auto using byte_lxor). unfold mulc.
  rewrite !xtime_lxor by (auto using xtime_byte).
  destruct (Z.testbit c 0), (Z.testbit c 1), (Z.testbit c 2), (Z.testbit c 3);
    apply Z.bits_inj'; intros n Hn; rewrite ?Z.lxor_spec, ?Z.bits_0; btauto.
Qed.
Lemma Multiply_byte : forall c, is_inv_coeff c -> forall a, byte a -> byte (Multiply a c).
Proof.
  intros c Hc. apply (forall_byte_byte (fun a => Multiply a c)).
  destruct Hc as [->|[->|[->| ->]]]; vm_compute; reflexivity.
Qed.

(** * 16-byte states *)
Lemma list16 : forall s : list Z, length s = 16%nat -> exists a0 a1 a2 a3 a4 a5 a6 a7 a8 a9 a10 a11 a12 a13 a14 a15,
  s = [a0; a1; a2; a3; a4; a5; a6; a7; a8; a9; a10; a11; a12; a13; a14; a15].
Proof.
  intros s H. do 16 (destruct s as [|? s]; [discriminate H|]). destruct s; [|discriminate H].
  repeat eexists.
Qed.
Lemma list4 : forall s : list Z, length s = 4%nat -> exists a b c d, s = [a; b; c; d].
Proof.
  intros s H. do 4 (destruct s as [|? s]; [discriminate H|]). destruct s; [|discriminate H].
  repeat eexists.
Qed.
Ltac d16 s H := destruct (list16 s H) as (?a&?a&?a&?a&?a&?a&?a&?a&?a&?a&?a&?a&?a&?a&?a&?a&->).

Definition st16 (s : list Z) : Prop := length s = 16%nat /\ bytes s.

Lemma map_bytes : forall (f : Z -> Z) s, (forall b, byte b -> byte (f b)) -> bytes s -> bytes (map f s).
Proof. intros f s Hf H. induction H; constructor; auto. Qed.
Lemma map_inv_id : forall (f g : Z -> Z) s, (forall b, byte b -> f (g b) = b) -> bytes s -> map f (map g s) = s.
Proof. intros f g s Hf H. induction H; cbn [map]; [reflexivity|]. rewrite Hf, IHForall by auto. reflexivity. Qed.
Lemma map_ext_bytes : forall (f g : Z -> Z) s, (forall b, byte b -> f b = g b) -> bytes s -> map f s = map g s.
Proof. intros f g s Hf H. induction H; cbn [map]; [reflexivity|]. rewrite Hf, IHForall by auto. reflexivity. Qed.

Lemma sub_st16 : forall s, st16 s -> st16 (aes_sub_bytes s).
Proof.
  intros s [Hl Hb]. split; [unfold aes_sub_bytes; rewrite map_length; auto|].
  apply map_bytes; auto. apply sbox_byte.
Qed.
Lemma invsub_st16 : forall s, st16 s -> st16 (Invaes_sub_bytes s).
Proof.
  intros s [Hl Hb]. split; [unfold Invaes_sub_bytes; rewrite map_length; auto|].
  apply map_bytes; auto. apply rsbox_byte.
Qed.
Ltac inv_bytes H := repeat match type of H with
  | bytes (_ :: _) => let H1 := fresh "Hb" in let H2 := fresh "Hr" in
      assert (H1 := Forall_inv H); assert (H2 := Forall_inv_tail H); clear H; rename H2 into H; fold bytes in H; change (bytes) with (bytes) in H
  | Forall _ (_ :: _) => let H1 := fresh "Hb" in let H2 := fresh "Hr" in
      assert (H1 := Forall_inv H); assert (H2 := Forall_inv_tail H); clear H; rename H2 into H
  end; clear H.
Lemma shift_st16 : forall s, st16 s -> st16 (aes_shift_rows s).
Proof.
  intros s [Hl Hb]. d16 s Hl. unfold bytes in Hb. inv_bytes Hb. split; [reflexivity|].
  cbv [aes_shift_rows st set nth upd Nat.add Nat.mul]. unfold bytes. repeat (constructor; auto).
Qed.
Lemma invshift_st16 : forall s, st16 s -> st16 (Invaes_shift_rows s).
Proof.
  intros s [Hl Hb]. d16 s Hl. unfold bytes in Hb. inv_bytes Hb. split; [reflexivity|].
  cbv [Invaes_shift_rows st set nth upd Nat.add Nat.mul]. unfold bytes. repeat (constructor; auto).
Qed.
Lemma invshift_shift : forall s, st16 s -> Invaes_shift_rows (aes_shift_rows s) = s.
Proof. intros s [Hl Hb]. d16 s Hl. reflexivity. Qed.
Lemma shift_invshift : forall s, st16 s -> aes_shift_rows (Invaes_shift_rows s) = s.
Proof. intros s [Hl Hb]. d16 s Hl. reflexivity. Qed.
Lemma invsub_sub : forall s, st16 s -> Invaes_sub_bytes (aes_sub_bytes s) = s.
Proof. intros s [Hl Hb]. apply map_inv_id; auto. apply rsbox_sbox. Qed.
Lemma sub_invsub : forall s, st16 s -> aes_sub_bytes (Invaes_sub_bytes s) = s.
Proof. intros s [Hl Hb]. apply map_inv_id; auto. apply sbox_rsbox. Qed.

(** * Columns *)
Definition lin4 (f : list Z -> list Z) : Prop := forall a b c d a' b' c' d',
  byte a -> byte b -> byte c -> byte d -> byte a' -> byte b' -> byte c' -> byte d' ->
  f [Z.lxor a a'; Z.lxor b b'; Z.lxor c c'; Z.lxor d d'] = xorl (f [a; b; c; d]) (f [a'; b'; c'; d']).
Definition col_ok (f : list Z -> list Z) : Prop := forall a b c d,
  byte a -> byte b -> byte c -> byte d -> length (f [a; b; c; d]) = 4%nat /\ bytes (f [a; b; c; d]).

Ltac xor_bits := apply Z.bits_inj'; intros ?n ?Hn; rewrite ?Z.lxor_spec, ?Z.bits_0; btauto.
Lemma mix_lin : lin4 mix_column.
Proof.
  intros a b c d a' b' c' d' Ha Hb Hc Hd Ha' Hb' Hc' Hd'.
  cbv beta iota zeta delta [mix_column]. cbn [xorl].
  rewrite !xtime_lxor by (repeat apply byte_lxor; auto).
  repeat (apply f_equal2; [xor_bits|]). reflexivity.
Qed.
Lemma inv_lin : lin4 inv_mix_column.
Proof.
  intros a b c d a' b' c' d' Ha Hb Hc Hd Ha' Hb' Hc' Hd'.
  cbv beta iota zeta delta [inv_mix_column]. cbn [xorl].
  rewrite !Multiply_lxor by (auto; unfold is_inv_coeff; tauto).
  repeat (apply f_equal2; [xor_bits|]). reflexivity.
Qed.
Lemma mix_ok : col_ok mix_column.
Proof.
  intros a b c d Ha Hb Hc Hd. cbv beta iota zeta delta [mix_column]. split; [reflexivity|].
  unfold bytes. repeat (constructor; [repeat (apply byte_lxor || apply xtime_byte || assumption)|]). constructor.
Qed.
Lemma inv_ok : col_ok inv_mix_column.
Proof.
  intros a b c d Ha Hb Hc Hd. cbv beta iota zeta delta [inv_mix_column]. split; [reflexivity|].
  unfold bytes.
  repeat (constructor; [repeat (apply byte_lxor || (apply Multiply_byte; [unfold is_inv_coeff; tauto|]) || assumption)|]).
  constructor.
Qed.

Lemma byte0 : byte 0. Proof. unfold byte. lia. Qed.

(** A composition of two linear column maps that fixes the columns with one non-zero byte fixes all. *)
Section Lin.
  Variables (f g : list Z -> list Z).
  Hypotheses (Lf : lin4 f) (Lg : lin4 g) (Og : col_ok g).
  Hypothesis F0 : forall a, byte a -> f (g [a; 0; 0; 0]) = [a; 0; 0; 0].
  Hypothesis F1 : forall a, byte a -> f (g [0; a; 0; 0]) = [0; a; 0; 0].
  Hypothesis F2 : forall a, byte a -> f (g [0; 0; a; 0]) = [0; 0; a; 0].
  Hypothesis F3 : forall a, byte a -> f (g [0; 0; 0; a]) = [0; 0; 0; a].
  Lemma fg_lin : forall a b c d a' b' c' d',
    byte a -> byte b -> byte c -> byte d -> byte a' -> byte b' -> byte c' -> byte d' ->
    f (g [Z.lxor a a'; Z.lxor b b'; Z.lxor c c'; Z.lxor d d'])
    = xorl (f (g [a; b; c; d])) (f (g [a'; b'; c'; d'])).
  Proof.
    intros a b c d a' b' c' d' Ha Hb Hc Hd Ha' Hb' Hc' Hd'. rewrite Lg by auto.
    destruct (Og a b c d Ha Hb Hc Hd) as [L1 B1]. destruct (Og a' b' c' d' Ha' Hb' Hc' Hd') as [L2 B2].
    destruct (list4 _ L1) as (x&y&z&t&E). destruct (list4 _ L2) as (x'&y'&z'&t'&E').
    rewrite E, E' in *. unfold bytes in B1, B2. inv_bytes B1. inv_bytes B2. cbn [xorl]. apply Lf; auto.
  Qed.
  Lemma fg_id : forall a b c d, byte a -> byte b -> byte c -> byte d ->
    f (g [a; b; c; d]) = [a; b; c; d].
  Proof.
    intros a b c d Ha Hb Hc Hd. pose proof byte0 as B0.
    replace [a; b; c; d] with [Z.lxor a 0; Z.lxor b 0; Z.lxor 0 c; Z.lxor 0 d]
      by (rewrite !Z.lxor_0_r, !Z.lxor_0_l; reflexivity).
    rewrite fg_lin by auto.
    replace [a; b; 0; 0] with [Z.lxor a 0; Z.lxor 0 b; Z.lxor 0 0; Z.lxor 0 0]
      by (rewrite !Z.lxor_0_r, !Z.lxor_0_l; reflexivity).
    replace [0; 0; c; d] with [Z.lxor 0 0; Z.lxor 0 0; Z.lxor c 0; Z.lxor 0 d]
      by (rewrite !Z.lxor_0_r, !Z.lxor_0_l; reflexivity).
    rewrite !fg_lin by auto. rewrite F0, F1, F2, F3 by auto. cbn [xorl].
    rewrite !Z.lxor_0_r, !Z.lxor_0_l. reflexivity.
  Qed.
End Lin.

Fixpoint leqb (a b : list Z) : bool :=
  match a, b with [], [] => true | x :: a', y :: b' => (x =? y) && leqb a' b' | _, _ => false end.
Lemma leqb_eq : forall a b, leqb a b = true -> a = b.
Proof.
  induction a as [|x a IH]; intros [|y b] H; try discriminate H; [reflexivity|].
  cbn [leqb] in H. apply andb_prop in H. destruct H as [H1 H2]. f_equal; [lia|auto].
Qed.
Lemma forall_byte_leq : forall f g, forallb (fun b => leqb (f b) (g b)) all_bytes = true ->
  forall b, byte b -> f b = g b.
Proof. intros f g H b Hb. apply leqb_eq. exact (forall_byte (fun b => leqb (f b) (g b)) H b Hb). Qed.

Lemma inv_mix_mix : forall a b c d, byte a -> byte b -> byte c -> byte d ->
  inv_mix_column (mix_column [a; b; c; d]) = [a; b; c; d].
Proof.
  apply (fg_id _ _ inv_lin mix_lin mix_ok).
  - apply (forall_byte_leq (fun a => inv_mix_column (mix_column [a; 0; 0; 0])) (fun a => [a; 0; 0; 0])). vm_compute; reflexivity.
  - apply (forall_byte_leq (fun a => inv_mix_column (mix_column [0; a; 0; 0])) (fun a => [0; a; 0; 0])). vm_compute; reflexivity.
  - apply (forall_byte_leq (fun a => inv_mix_column (mix_column [0; 0; a; 0])) (fun a => [0; 0; a; 0])). vm_compute; reflexivity.
  - apply (forall_byte_leq (fun a => inv_mix_column (mix_column [0; 0; 0; a])) (fun a => [0; 0; 0; a])). vm_compute; reflexivity.
Qed.
Lemma mix_inv_mix : forall a b c d, byte a -> byte b -> byte c -> byte d ->
  mix_column (inv_mix_column [a; b; c; d]) = [a; b; c; d].
Proof.
  apply (fg_id _ _ mix_lin inv_lin inv_ok).
  - apply (forall_byte_leq (fun a => mix_column (inv_mix_column [a; 0; 0; 0])) (fun a => [a; 0; 0; 0])). vm_compute; reflexivity.
  - apply (forall_byte_leq (fun a => mix_column (inv_mix_column [0; a; 0; 0])) (fun a => [0; a; 0; 0])). vm_compute; reflexivity.
  - apply (forall_byte_leq (fun a => mix_column (inv_mix_column [0; 0; a; 0])) (fun a => [0; 0; a; 0])). vm_compute; reflexivity.
  - apply (forall_byte_leq (fun a => mix_column (inv_mix_column [0; 0; 0; a])) (fun a => [0; 0; 0; a])). vm_compute; reflexivity.
Qed.

Lemma st16_cols : forall s, st16 s -> exists a b c d, s = a ++ b ++ c ++ d /\
  length a = 4%nat /\ length b = 4%nat /\ length c = 4%nat /\ length d = 4%nat /\
  bytes a /\ bytes b /\ bytes c /\ bytes d.
Proof.
  intros s [Hl Hb]. d16 s Hl. unfold bytes in Hb. inv_bytes Hb.
  eexists [_;_;_;_], [_;_;_;_], [_;_;_;_], [_;_;_;_]. cbn [app].
  split; [reflexivity|]. unfold bytes. do 4 (split; [reflexivity|]). repeat split; repeat (constructor; auto).
Qed.
Lemma columns_app : forall f a b c d,
  length a = 4%nat -> length b = 4%nat -> length c = 4%nat -> length d = 4%nat ->
  columns f (a ++ b ++ c ++ d) = f a ++ f b ++ f c ++ f d.
Proof.
  intros f a b c d Ha Hb Hc Hd.
  destruct (list4 _ Ha) as (?&?&?&?&->), (list4 _ Hb) as (?&?&?&?&->), (list4 _ Hc) as (?&?&?&?&->),
    (list4 _ Hd) as (?&?&?&?&->). reflexivity.
Qed.
Lemma col_ok' : forall f, col_ok f -> forall a, length a = 4%nat -> bytes a -> length (f a) = 4%nat /\ bytes (f a).
Proof. intros f Hf a Ha Hb. destruct (list4 _ Ha) as (?&?&?&?&->). unfold bytes in Hb. inv_bytes Hb. apply Hf; auto. Qed.
Lemma columns_st16 : forall f, col_ok f -> forall s, st16 s -> st16 (columns f s).
Proof.
  intros f Hf s Hs. destruct (st16_cols s Hs) as (a&b&c&d&->&La&Lb&Lc&Ld&Ba&Bb&Bc&Bd).
  rewrite columns_app by auto.
  destruct (col_ok' f Hf a La Ba) as [Ea ?], (col_ok' f Hf b Lb Bb) as [Eb ?], (col_ok' f Hf c Lc Bc) as [Ec ?],
    (col_ok' f Hf d Ld Bd) as [Ed ?].
  split; [rewrite !app_length; lia|]. repeat apply bytes_app; auto.
Qed.
Lemma columns_inv : forall f g, col_ok g ->
  (forall a b c d, byte a -> byte b -> byte c -> byte d -> f (g [a; b; c; d]) = [a; b; c; d]) ->
  forall s, st16 s -> columns f (columns g s) = s.
Proof.
  intros f g Hg H s Hs. destruct (st16_cols s Hs) as (a&b&c&d&->&La&Lb&Lc&Ld&Ba&Bb&Bc&Bd).
  rewrite (columns_app g) by auto. rewrite columns_app by (apply (col_ok' g Hg); auto).
  assert (K : forall x, length x = 4%nat -> bytes x -> f (g x) = x).
  { intros x Lx Bx. destruct (list4 _ Lx) as (?&?&?&?&->). unfold bytes in Bx. inv_bytes Bx. apply H; auto. }
  rewrite !K by auto. reflexivity.
Qed.
Lemma columns_ext : forall f g,
  (forall a b c d, byte a -> byte b -> byte c -> byte d -> f [a; b; c; d] = g [a; b; c; d]) ->
  forall s, st16 s -> columns f s = columns g s.
Proof.
  intros f g H s Hs. destruct (st16_cols s Hs) as (a&b&c&d&->&La&Lb&Lc&Ld&Ba&Bb&Bc&Bd).
  rewrite !columns_app by auto.
  assert (K : forall x, length x = 4%nat -> bytes x -> f x = g x).
  { intros x Lx Bx. destruct (list4 _ Lx) as (?&?&?&?&->). unfold bytes in Bx. inv_bytes Bx. apply H; auto. }
  rewrite !K by auto. reflexivity.
Qed.

Lemma mix_st16 : forall s, st16 s -> st16 (aes_mix_columns s).
Proof. exact (columns_st16 _ mix_ok). Qed.
Lemma invmix_st16 : forall s, st16 s -> st16 (Invaes_mix_columns s).
Proof. exact (columns_st16 _ inv_ok). Qed.
Lemma invmix_mix : forall s, st16 s -> Invaes_mix_columns (aes_mix_columns s) = s.
Proof. exact (columns_inv _ _ mix_ok inv_mix_mix). Qed.
Lemma mix_invmix : forall s, st16 s -> aes_mix_columns (Invaes_mix_columns s) = s.
Proof. exact (columns_inv _ _ inv_ok mix_inv_mix). Qed.

(** * Round keys *)
Definition rk_ok (nr : nat) (rk : list Z) : Prop := (16 * (nr + 1) <= length rk)%nat /\ bytes rk.
Lemma rk_slice : forall nr rk r, rk_ok nr rk -> (r <= nr)%nat ->
  length (slice rk (r * 16) 16) = 16%nat /\ bytes (slice rk (r * 16) 16).
Proof.
  intros nr rk r [Hl Hb] Hr. unfold slice. split; [rewrite firstn_length, skipn_length; lia|].
  apply bytes_firstn, bytes_skipn, Hb.
Qed.
Lemma xorl_bytes : forall a b, bytes a -> bytes b -> bytes (xorl a b).
Proof.
  induction a as [|x a IH]; intros [|y b] Ha Hb; cbn [xorl]; auto; try constructor.
  - inversion Ha; inversion Hb; subst. apply byte_lxor; auto.
  - inversion Ha; inversion Hb; subst. apply IH; auto.
Qed.
Lemma xorl_xorl : forall a b, length a = length b -> xorl (xorl a b) b = a.
Proof.
  induction a as [|x a IH]; intros [|y b] H; try discriminate H; cbn [xorl]; [reflexivity|].
  rewrite Z.lxor_assoc, Z.lxor_nilpotent, Z.lxor_0_r, IH by (cbn in H; lia). reflexivity.
Qed.
Lemma ark_st16 : forall nr rk r s, rk_ok nr rk -> (r <= nr)%nat -> st16 s -> st16 (add_round_key r s rk).
Proof.
  intros nr rk r s Hk Hr [Hl Hb]. destruct (rk_slice nr rk r Hk Hr) as [L B].
  split; unfold add_round_key; [rewrite length_xorl; lia|apply xorl_bytes; auto].
Qed.
Lemma ark_ark : forall nr rk r s, rk_ok nr rk -> (r <= nr)%nat -> st16 s ->
  add_round_key r (add_round_key r s rk) rk = s.
Proof.
  intros nr rk r s Hk Hr [Hl Hb]. destruct (rk_slice nr rk r Hk Hr) as [L B].
  unfold add_round_key. apply xorl_xorl. lia.
Qed.

Lemma cipher_rounds_O : forall r s rk, cipher_rounds 0 r s rk = aes_shift_rows (aes_sub_bytes s).
Proof. reflexivity. Qed.
Lemma cipher_rounds_S : forall k r s rk, cipher_rounds (S k) r s rk
  = cipher_rounds k (S r) (add_round_key r (aes_mix_columns (aes_shift_rows (aes_sub_bytes s))) rk) rk.
Proof. reflexivity. Qed.
Lemma inv_rounds_O : forall s rk, inv_rounds 0 s rk = add_round_key 0 (Invaes_sub_bytes (Invaes_shift_rows s)) rk.
Proof. reflexivity. Qed.
Lemma inv_rounds_S : forall r s rk, inv_rounds (S r) s rk
  = inv_rounds r (Invaes_mix_columns (add_round_key (S r) (Invaes_sub_bytes (Invaes_shift_rows s)) rk)) rk.
Proof. reflexivity. Qed.

(** * C37: decryption inverts encryption and conversely, for any round keys *)
Section Inv.
  Variables (nr : nat) (rk : list Z).
  Hypothesis K : rk_ok nr rk.
  Lemma cipher_rounds_st16 : forall k r s, (r + k <= nr)%nat -> st16 s -> st16 (cipher_rounds k r s rk).
  Proof.
    induction k as [|k IH]; intros r s Hr Hs; [rewrite cipher_rounds_O|rewrite cipher_rounds_S]; [apply shift_st16, sub_st16, Hs|].
    apply IH; [lia|]. apply (ark_st16 nr); [exact K|lia|]. apply mix_st16, shift_st16, sub_st16, Hs.
  Qed.
  Lemma inv_rounds_st16 : forall r s, (r <= nr)%nat -> st16 s -> st16 (inv_rounds r s rk).
  Proof.
    induction r as [|r IH]; intros s Hr Hs; [rewrite inv_rounds_O|rewrite inv_rounds_S].
    - apply (ark_st16 nr); [exact K|lia|]. apply invsub_st16, invshift_st16, Hs.
    - apply IH; [lia|]. apply invmix_st16, (ark_st16 nr); [exact K|lia|]. apply invsub_st16, invshift_st16, Hs.
  Qed.
  (** One decryption round undoes one encryption round. *)
  Lemma inv_rounds_cipher : forall k r s, (1 <= r)%nat -> (r + k <= nr)%nat -> st16 s ->
    inv_rounds (r + k - 1) (cipher_rounds k r s rk) rk = inv_rounds (r - 1) (aes_shift_rows (aes_sub_bytes s)) rk.
  Proof.
    induction k as [|k IH]; intros r s H1 Hr Hs; [rewrite cipher_rounds_O|rewrite cipher_rounds_S].
    - rewrite Nat.add_0_r. reflexivity.
    - replace (r + S k - 1)%nat with (S r + k - 1)%nat by lia.
      rewrite IH; [|lia|lia|apply (ark_st16 nr); [exact K|lia|]; apply mix_st16, shift_st16, sub_st16, Hs].
      replace (S r - 1)%nat with (S (r - 1)) by lia. rewrite inv_rounds_S.
      replace (S (r - 1)) with r by lia.
      assert (Hs1 : st16 (aes_shift_rows (aes_sub_bytes s))) by (apply shift_st16, sub_st16, Hs).
      assert (Hs2 : st16 (add_round_key r (aes_mix_columns (aes_shift_rows (aes_sub_bytes s))) rk)).
      { apply (ark_st16 nr); [exact K|lia|]. apply mix_st16, Hs1. }
      rewrite invshift_shift by (apply sub_st16, Hs2). rewrite invsub_sub by exact Hs2.
      rewrite (ark_ark nr) by (first [exact K | lia | apply mix_st16, Hs1]).
      rewrite invmix_mix by exact Hs1. reflexivity.
  Qed.
  Lemma dec_enc : forall c s, ae_rk c = rk -> ae_nr c = nr -> (0 < nr)%nat -> st16 s ->
    aes_inv_cipher c (aes_cipher c s) = s.
  Proof.
    intros c s E1 E2 Hn Hs. unfold aes_inv_cipher, aes_cipher. rewrite E1, E2.
    assert (H0 : st16 (add_round_key 0 s rk)) by (apply (ark_st16 nr); [exact K|lia|exact Hs]).
    rewrite (ark_ark nr) by (first [exact K | lia | apply cipher_rounds_st16; [lia|exact H0]]).
    replace (nr - 1)%nat with (1 + (nr - 1) - 1)%nat at 1 by lia.
    rewrite inv_rounds_cipher by (first [exact H0 | lia]). change (1 - 1)%nat with 0%nat. rewrite inv_rounds_O.
    rewrite invshift_shift by (apply sub_st16, H0). rewrite invsub_sub by exact H0.
    apply (ark_ark nr); [exact K|lia|exact Hs].
  Qed.
  (** [g] is what remains of the encryption after round [r]. *)
  Lemma cipher_inv_rounds : forall r s, (r < nr)%nat -> st16 s ->
    cipher_rounds (nr - 1) 1 (add_round_key 0 (inv_rounds r s rk) rk) rk = cipher_rounds (nr - 1 - r) (S r) (Invaes_sub_bytes (Invaes_shift_rows s)) rk.
  Proof.
    induction r as [|r IH]; intros s Hr Hs; [rewrite inv_rounds_O|rewrite inv_rounds_S].
    - rewrite (ark_ark nr) by (first [exact K | lia | apply invsub_st16, invshift_st16, Hs]).
      rewrite Nat.sub_0_r. reflexivity.
    - assert (H1 : st16 (Invaes_sub_bytes (Invaes_shift_rows s))) by (apply invsub_st16, invshift_st16, Hs).
      assert (H2 : st16 (add_round_key (S r) (Invaes_sub_bytes (Invaes_shift_rows s)) rk))
        by (apply (ark_st16 nr); [exact K|lia|exact H1]).
      assert (H3 : st16 (Invaes_mix_columns (add_round_key (S r) (Invaes_sub_bytes (Invaes_shift_rows s)) rk)))
        by (apply invmix_st16, H2).
      rewrite IH by (first [lia | exact H3]).
      replace (nr - 1 - r)%nat with (S (nr - 1 - S r)) by lia. rewrite cipher_rounds_S.
      rewrite sub_invsub by (apply invshift_st16, H3). rewrite shift_invshift by exact H3.
      rewrite mix_invmix by exact H2. rewrite (ark_ark nr) by (first [exact K | lia | exact H1]). reflexivity.
  Qed.
  Lemma enc_dec : forall c s, ae_rk c = rk -> ae_nr c = nr -> (0 < nr)%nat -> st16 s ->
    aes_cipher c (aes_inv_cipher c s) = s.
  Proof.
    intros c s E1 E2 Hn Hs. unfold aes_inv_cipher, aes_cipher. rewrite E1, E2.
    assert (H0 : st16 (add_round_key nr s rk)) by (apply (ark_st16 nr); [exact K|lia|exact Hs]).
    rewrite cipher_inv_rounds by (first [lia | exact H0]).
    replace (nr - 1 - (nr - 1))%nat with 0%nat by lia. rewrite cipher_rounds_O.
    rewrite sub_invsub by (apply invshift_st16, H0). rewrite shift_invshift by exact H0.
    apply (ark_ark nr); [exact K|lia|exact Hs].
  Qed.
  Lemma cipher_st16 : forall c s, ae_rk c = rk -> ae_nr c = nr -> (0 < nr)%nat -> st16 s -> st16 (aes_cipher c s).
  Proof.
    intros c s E1 E2 Hn Hs. unfold aes_cipher. rewrite E1, E2.
    apply (ark_st16 nr); [exact K|lia|]. apply cipher_rounds_st16; [lia|].
    apply (ark_st16 nr); [exact K|lia|exact Hs].
  Qed.
  Lemma inv_cipher_st16 : forall c s, ae_rk c = rk -> ae_nr c = nr -> (0 < nr)%nat -> st16 s -> st16 (aes_inv_cipher c s).
  Proof.
    intros c s E1 E2 Hn Hs. unfold aes_inv_cipher. rewrite E1, E2. apply inv_rounds_st16; [lia|].
    apply (ark_st16 nr); [exact K|lia|exact Hs].
  Qed.
End Inv.

(** * C38: rounds against FIPS 197 *)
Lemma SubBytes_eq : forall s, st16 s -> aes_sub_bytes s = SubBytes s.
Proof. intros s [Hl Hb]. apply map_ext_bytes; auto. apply sbox_spec. Qed.
Lemma ShiftRows_eq : forall s, st16 s -> aes_shift_rows s = ShiftRows s.
Proof. intros s [Hl Hb]. d16 s Hl. reflexivity. Qed.
Lemma mix_spec : forall a b c d, byte a -> byte b -> byte c -> byte d ->
  mix_column [a; b; c; d] =
  [Z.lxor (gmul 2 a) (Z.lxor (gmul 3 b) (Z.lxor (gmul 1 c) (Z.lxor (gmul 1 d) 0)));
   Z.lxor (gmul 1 a) (Z.lxor (gmul 2 b) (Z.lxor (gmul 3 c) (Z.lxor (gmul 1 d) 0)));
   Z.lxor (gmul 1 a) (Z.lxor (gmul 1 b) (Z.lxor (gmul 2 c) (Z.lxor (gmul 3 d) 0)));
   Z.lxor (gmul 3 a) (Z.lxor (gmul 1 b) (Z.lxor (gmul 1 c) (Z.lxor (gmul 2 d) 0)))].
Proof.
  intros a b c d Ha Hb Hc Hd. rewrite !gmul1, !gmul2, !gmul3 by auto.
  cbv beta iota zeta delta [mix_column]. rewrite !xtime_lxor by auto.
  repeat (apply f_equal2; [xor_bits|]). reflexivity.
Qed.
Lemma MixColumns_eq : forall s, st16 s -> aes_mix_columns s = MixColumns s.
Proof.
  intros s [Hl Hb]. d16 s Hl. unfold bytes in Hb. inv_bytes Hb.
  unfold aes_mix_columns, columns. cbv [slice firstn skipn]. rewrite !mix_spec by auto.
  reflexivity.
Qed.

(** The words of a key schedule. *)
Definition words_ok (w : list (list Z)) : Prop := Forall (fun x => length x = 4%nat /\ bytes x) w.
Lemma words_concat_len : forall w, words_ok w -> length (concat w) = (4 * length w)%nat.
Proof. induction 1 as [|x w [Hl Hb] Hw IH]; cbn [concat length]; [reflexivity|]. rewrite app_length. lia. Qed.
Lemma words_concat_bytes : forall w, words_ok w -> bytes (concat w).
Proof. induction 1 as [|x w [Hl Hb] Hw IH]; cbn [concat]; [constructor|]. apply bytes_app; auto. Qed.
Lemma slice_concat : forall w k, words_ok w -> (k < length w)%nat -> slice (concat w) (k * 4) 4 = nth k w [].
Proof.
  intros w k H. revert k. induction H as [|x w [Hl Hb] Hw IH]; intros k Hk; [cbn in Hk; lia|].
  cbn [concat]. destruct k as [|k].
  - destruct (list4 _ Hl) as (?&?&?&?&->). reflexivity.
  - cbn [nth]. rewrite <- IH by (cbn in Hk; lia). destruct (list4 _ Hl) as (?&?&?&?&->). reflexivity.
Qed.
Lemma words_nth : forall w k, words_ok w -> (k < length w)%nat -> length (nth k w []) = 4%nat /\ bytes (nth k w []).
Proof. intros w k H Hk. unfold words_ok in H. rewrite Forall_forall in H. apply H, nth_In, Hk. Qed.

Lemma slice_split : forall (l : list Z) o a b, slice l o (a + b) = slice l o a ++ slice l (o + a) b.
Proof.
  intros l o a b. unfold slice. revert l a b. induction o as [|o IH]; intros l a b.
  - cbn [skipn Nat.add]. revert l. induction a as [|a IHa]; intros l; [reflexivity|].
    destruct l as [|x l]; [cbn [skipn firstn Nat.add app]; destruct b; reflexivity|].
    cbn [firstn skipn Nat.add app]. rewrite IHa. reflexivity.
  - destruct l as [|x l]; [cbn [skipn Nat.add]; rewrite !firstn_nil; reflexivity|]. cbn [skipn Nat.add]. apply IH.
Qed.

Lemma slice16_concat : forall w r, words_ok w -> (4 * r + 3 < length w)%nat ->
  slice (concat w) (r * 16) 16 = nth (4 * r) w [] ++ nth (4 * r + 1) w [] ++ nth (4 * r + 2) w [] ++ nth (4 * r + 3) w [].
Proof.
  intros w r Hw Hr. change 16%nat with (4 + (4 + (4 + 4)))%nat at 2. rewrite !slice_split.
  replace (r * 16)%nat with (4 * r * 4)%nat by lia.
  replace (4 * r * 4 + 4)%nat with ((4 * r + 1) * 4)%nat by lia.
  replace ((4 * r + 1) * 4 + 4)%nat with ((4 * r + 2) * 4)%nat by lia.
  replace ((4 * r + 2) * 4 + 4)%nat with ((4 * r + 3) * 4)%nat by lia.
  rewrite !slice_concat by (auto; lia). reflexivity.
Qed.
Lemma AddRoundKey_eq : forall w r s, words_ok w -> (4 * r + 3 < length w)%nat -> st16 s ->
  add_round_key r s (concat w) = AddRoundKey s w r.
Proof.
  intros w r s Hw Hr [Hl Hb]. unfold add_round_key. rewrite slice16_concat by auto.
  unfold AddRoundKey, mk_state. cbn [seq map Nat.modulo Nat.div Nat.divmod fst snd Nat.sub].
  rewrite Nat.add_0_r.
  destruct (words_nth w (4 * r) Hw) as [L0 _]; [lia|]. destruct (words_nth w (4 * r + 1) Hw) as [L1 _]; [lia|].
  destruct (words_nth w (4 * r + 2) Hw) as [L2 _]; [lia|]. destruct (words_nth w (4 * r + 3) Hw) as [L3 _]; [lia|].
  destruct (list4 _ L0) as (?&?&?&?&->), (list4 _ L1) as (?&?&?&?&->), (list4 _ L2) as (?&?&?&?&->), (list4 _ L3) as (?&?&?&?&->).
  d16 s Hl. reflexivity.
Qed.

Lemma cipher_rounds_eq : forall w nr, words_ok w -> length w = (4 * (nr + 1))%nat ->
  forall k r s, (1 <= r)%nat -> (r + k = nr)%nat -> st16 s ->
  cipher_rounds k r s (concat w) = ShiftRows (SubBytes (fold_left (round_fn w) (seq r k) s)).
Proof.
  intros w nr Hw Hl. assert (HK : rk_ok nr (concat w)).
  { split; [rewrite words_concat_len by auto; lia|apply words_concat_bytes; auto]. }
  induction k as [|k IH]; intros r s H1 Hr Hs; cbn [seq fold_left]; [rewrite cipher_rounds_O|rewrite cipher_rounds_S].
  - rewrite <- SubBytes_eq, <- ShiftRows_eq; auto. apply sub_st16, Hs.
  - assert (E : add_round_key r (aes_mix_columns (aes_shift_rows (aes_sub_bytes s))) (concat w) = round_fn w s r).
    { unfold round_fn. rewrite <- SubBytes_eq by auto. rewrite <- ShiftRows_eq by (apply sub_st16, Hs).
      rewrite <- MixColumns_eq by (apply shift_st16, sub_st16, Hs).
      apply AddRoundKey_eq; auto; [lia|]. apply mix_st16, shift_st16, sub_st16, Hs. }
    rewrite E. apply IH; [lia|lia|]. rewrite <- E.
    apply (ark_st16 nr); [exact HK|lia|]. apply mix_st16, shift_st16, sub_st16, Hs.
Qed.
Lemma cipher_eq : forall w nr c s, words_ok w -> length w = (4 * (nr + 1))%nat -> (0 < nr)%nat ->
  ae_rk c = concat w -> ae_nr c = nr -> st16 s -> aes_cipher c s = Cipher nr w s.
Proof.
  intros w nr c s Hw Hl Hn E1 E2 Hs. unfold aes_cipher, Cipher. rewrite E1, E2.
  assert (HK : rk_ok nr (concat w)).
  { split; [rewrite words_concat_len by auto; lia|apply words_concat_bytes; auto]. }
  assert (H0 : st16 (add_round_key 0 s (concat w))) by (apply (ark_st16 nr); [exact HK|lia|exact Hs]).
  rewrite AddRoundKey_eq; [|auto|lia|].
  - rewrite (cipher_rounds_eq w nr) by (auto; lia). rewrite (AddRoundKey_eq w 0) by (auto; lia). reflexivity.
  - apply (cipher_rounds_st16 nr _ HK); [lia|exact H0].
Qed.

(** ** Key expansion *)
Lemma div_pred : forall i nk, (0 < nk)%nat -> (0 < i)%nat ->
  ((i - 1) / nk = if (i mod nk =? 0)%nat then i / nk - 1 else i / nk)%nat.
Proof.
  intros i nk Hn Hi. pose proof (Nat.div_mod i nk ltac:(lia)) as E. pose proof (Nat.mod_upper_bound i nk ltac:(lia)) as B.
  destruct (Nat.eqb_spec (i mod nk) 0) as [Z0|NZ].
  - symmetry. assert (1 <= i / nk)%nat by (destruct (i / nk)%nat; lia).
    apply (Nat.div_unique (i - 1) nk (i / nk - 1) (nk - 1)); [lia|].
    rewrite Nat.mul_sub_distr_l. nia.
  - symmetry. apply (Nat.div_unique (i - 1) nk (i / nk) (i mod nk - 1)); lia.
Qed.
Lemma RCON_eq : forall j, (1 <= j <= 10)%nat -> RCON j = [nth j Rcon 0; 0; 0; 0].
Proof.
  intros j Hj. do 11 (destruct j as [|j]; [first [lia | vm_compute; reflexivity]|]). lia.
Qed.
Lemma gpow2_byte : forall j, byte (gpow2 j).
Proof.
  induction j as [|j IH]; [unfold byte; cbn; lia|]. cbn [gpow2]. rewrite gmul2 by exact IH. apply xtime_byte, IH.
Qed.

Definition good_type (nk nr : nat) : Prop := (nk = 4 /\ nr = 10)%nat \/ (nk = 6 /\ nr = 12)%nat \/ (nk = 8 /\ nr = 14)%nat.
Definition spec_words (nk : nat) (key : list Z) (n : nat) : list (list Z) :=
  fold_left (fun w i => w ++ [next_word nk w i]) (seq nk n) (map (fun i => slice key (4 * i) 4) (seq 0 nk)).

Lemma spec_words_S : forall nk key n,
  spec_words nk key (S n) = spec_words nk key n ++ [next_word nk (spec_words nk key n) (nk + n)].
Proof. intros. unfold spec_words. rewrite seq_S, fold_left_app. reflexivity. Qed.

Lemma next_word_ok : forall nk w i, (0 < nk)%nat -> words_ok w -> length w = i -> (nk <= i)%nat ->
  length (next_word nk w i) = 4%nat /\ bytes (next_word nk w i).
Proof.
  intros nk w i Hn Hw Hl Hi. unfold next_word.
  destruct (words_nth w (i - 1) Hw ltac:(lia)) as [L1 B1].
  destruct (words_nth w (i - nk) Hw ltac:(lia)) as [L2 B2].
  assert (HS : forall a, length a = 4%nat -> bytes a -> length (SubWord a) = 4%nat /\ bytes (SubWord a)).
  { intros a La Ba. unfold SubWord. rewrite map_length. split; auto. apply map_bytes; auto.
    intros b Hb. rewrite <- sbox_spec by auto. apply sbox_byte; auto. }
  match goal with |- context [xorl _ ?t] => assert (HT : length t = 4%nat /\ bytes t) end.
  { destruct (list4 _ L1) as (a&b&c&d&E). rewrite E in *. unfold bytes in B1. inv_bytes B1.
    destruct (i mod nk =? 0)%nat; [|destruct ((6 <? nk) && (i mod nk =? 4))%nat].
    - destruct (HS (RotWord [a; b; c; d])) as [L B]; [reflexivity| |].
      { unfold RotWord, bytes. cbn [nth]. repeat (constructor; auto). }
      split; [rewrite length_xorl, L; reflexivity|]. apply xorl_bytes; auto.
      unfold RCON. constructor; [apply gpow2_byte|]. repeat constructor; lia.
    - apply HS; auto. unfold bytes. repeat (constructor; auto).
    - split; auto. unfold bytes. repeat (constructor; auto). }
  destruct HT as [L B]. split; [rewrite length_xorl; lia|apply xorl_bytes; auto].
Qed.
Lemma spec_words_ok : forall nk key n, (0 < nk)%nat -> length key = (4 * nk)%nat -> bytes key ->
  words_ok (spec_words nk key n) /\ length (spec_words nk key n) = (nk + n)%nat.
Proof.
  intros nk key n Hn Hl Hb. induction n as [|n [IW IL]].
  - unfold spec_words. cbn [seq fold_left]. rewrite map_length, seq_length. split; [|lia].
    unfold words_ok. rewrite Forall_forall. intros x Hx. apply in_map_iff in Hx. destruct Hx as (i&<-&Hi).
    apply in_seq in Hi. unfold slice. split; [rewrite firstn_length, skipn_length; lia|].
    apply bytes_firstn, bytes_skipn, Hb.
  - rewrite spec_words_S. split; [|rewrite app_length, IL; cbn [length]; lia].
    apply Forall_app. split; [exact IW|]. constructor; [|constructor].
    apply next_word_ok; auto; lia.
Qed.

Lemma concat_slices : forall n (key : list Z) o, length key = (o + 4 * n)%nat ->
  concat (map (fun i => slice key (o + 4 * i) 4) (seq 0 n)) = skipn o key.
Proof.
  induction n as [|n IH]; intros key o Hl.
  - cbn [seq map concat]. symmetry. apply skipn_all2. lia.
  - cbn [seq map concat]. rewrite <- seq_shift, map_map.
    rewrite (map_ext _ (fun i => slice key ((o + 4) + 4 * i) 4)) by (intros; f_equal; lia).
    rewrite IH by lia. unfold slice. rewrite Nat.add_0_r.
    replace (skipn (o + 4) key) with (skipn 4 (skipn o key)); [apply firstn_skipn|].
    clear. revert key. induction o as [|o IH]; intros key; [reflexivity|].
    destruct key as [|x key]; [reflexivity|]. cbn [skipn Nat.add]. apply IH.
Qed.

Lemma key_expansion_eq : forall nk nr key, good_type nk nr -> length key = (4 * nk)%nat -> bytes key ->
  aes_key_expansion nk nr key = concat (KeyExpansion nk nr key).
Proof.
  intros nk nr key G Hl Hb. unfold aes_key_expansion, KeyExpansion.
  replace (4 * nr + 4 - nk)%nat with (4 * (nr + 1) - nk)%nat by lia.
  set (N := (4 * (nr + 1) - nk)%nat). fold (spec_words nk key N).
  assert (Hnk : (0 < nk)%nat) by (unfold good_type in G; lia).
  assert (A : forall n, (n <= N)%nat ->
    fold_left (key_step nk) (seq nk n) (firstn (4 * nk) key) = concat (spec_words nk key n)).
  { induction n as [|n IH]; intros Hn.
    - unfold spec_words. cbn [seq fold_left]. pose proof (concat_slices nk key 0 Hl) as E. cbn [Nat.add skipn] in E.
      rewrite E. apply firstn_all2. lia.
    - rewrite seq_S, fold_left_app, IH by lia. cbn [fold_left]. rewrite spec_words_S, concat_app. cbn [concat]. rewrite app_nil_r.
      destruct (spec_words_ok nk key n Hnk Hl Hb) as [W L].
      set (w := spec_words nk key n) in *. unfold key_step. f_equal. unfold next_word.
      set (i := (nk + n)%nat) in *.
      rewrite !slice_concat by (auto; lia).
      destruct (words_nth w (i - 1) W ltac:(lia)) as [L1 B1].
      f_equal. destruct (list4 _ L1) as (a&b&c&d&E). rewrite E in *. unfold bytes in B1. inv_bytes B1.
      assert (Hdiv : (i mod nk = 0 -> 1 <= i / nk <= 10)%nat).
      { intros M. split.
        - apply Nat.div_le_lower_bound; lia.
        - apply Nat.lt_succ_r. apply Nat.div_lt_upper_bound; [lia|]. unfold N, good_type in *. lia. }
      destruct (Nat.eqb_spec (i mod nk) 0) as [M|M].
      + rewrite RCON_eq by auto. rewrite M, Bool.andb_false_r.
        cbn [rot4 app sub4 map RotWord nth SubWord xorl]. rewrite !sbox_spec by auto.
        rewrite !Z.lxor_0_r. reflexivity.
      + replace (nk =? 8)%nat with (6 <? nk)%nat by (unfold good_type in G; destruct G as [[-> _]|[[-> _]|[-> _]]]; reflexivity).
        destruct ((6 <? nk) && (i mod nk =? 4))%nat; [|reflexivity].
        cbn [sub4 map SubWord]. rewrite !sbox_spec by auto. reflexivity. }
  apply A. lia.
Qed.

Lemma KeyExpansion_ok : forall nk nr key, good_type nk nr -> length key = (4 * nk)%nat -> bytes key ->
  words_ok (KeyExpansion nk nr key) /\ length (KeyExpansion nk nr key) = (4 * (nr + 1))%nat.
Proof.
  intros nk nr key G Hl Hb. unfold KeyExpansion. fold (spec_words nk key (4 * nr + 4 - nk)).
  destruct (spec_words_ok nk key (4 * nr + 4 - nk) ltac:(unfold good_type in G; lia) Hl Hb) as [W L].
  split; auto. rewrite L. unfold good_type in G. lia.
Qed.

(** * Decryption against FIPS 197 *)
Lemma rsbox_spec : forall b, byte b -> getSBoxInvert b = INVSBOX b.
Proof. apply forall_byte_eq. vm_compute. reflexivity. Qed.
Lemma gmul_inv : forall c, is_inv_coeff c -> forall b, byte b -> gmul c b = Multiply b c.
Proof.
  intros c Hc. apply (forall_byte_eq (gmul c) (fun b => Multiply b c)).
  destruct Hc as [->|[->|[->| ->]]]; vm_compute; reflexivity.
Qed.
Lemma InvSubBytes_eq : forall s, st16 s -> Invaes_sub_bytes s = InvSubBytes s.
Proof. intros s [Hl Hb]. apply map_ext_bytes; auto. apply rsbox_spec. Qed.
Lemma InvShiftRows_eq : forall s, st16 s -> Invaes_shift_rows s = InvShiftRows s.
Proof. intros s [Hl Hb]. d16 s Hl. reflexivity. Qed.
Lemma inv_mix_spec : forall a b c d, byte a -> byte b -> byte c -> byte d ->
  inv_mix_column [a; b; c; d] =
  [Z.lxor (gmul 0x0e a) (Z.lxor (gmul 0x0b b) (Z.lxor (gmul 0x0d c) (Z.lxor (gmul 0x09 d) 0)));
   Z.lxor (gmul 0x09 a) (Z.lxor (gmul 0x0e b) (Z.lxor (gmul 0x0b c) (Z.lxor (gmul 0x0d d) 0)));
   Z.lxor (gmul 0x0d a) (Z.lxor (gmul 0x09 b) (Z.lxor (gmul 0x0e c) (Z.lxor (gmul 0x0b d) 0)));
   Z.lxor (gmul 0x0b a) (Z.lxor (gmul 0x0d b) (Z.lxor (gmul 0x09 c) (Z.lxor (gmul 0x0e d) 0)))].
Proof.
  intros a b c d Ha Hb Hc Hd. rewrite !gmul_inv by (auto; unfold is_inv_coeff; tauto).
  unfold inv_mix_column. rewrite !Z.lxor_0_r, !Z.lxor_assoc. reflexivity.
Qed.
Lemma InvMixColumns_eq : forall s, st16 s -> Invaes_mix_columns s = InvMixColumns s.
Proof.
  intros s [Hl Hb]. d16 s Hl. unfold bytes in Hb. inv_bytes Hb.
  unfold Invaes_mix_columns, columns. cbv [slice firstn skipn]. rewrite !inv_mix_spec by auto.
  reflexivity.
Qed.
Lemma inv_rounds_eq : forall w nr, words_ok w -> length w = (4 * (nr + 1))%nat ->
  forall r s, (r < nr)%nat -> st16 s ->
  inv_rounds r s (concat w)
  = AddRoundKey (InvSubBytes (InvShiftRows (fold_left (inv_round_fn w) (rev (seq 1 r)) s))) w 0.
Proof.
  intros w nr Hw Hl. assert (HK : rk_ok nr (concat w)).
  { split; [rewrite words_concat_len by auto; lia|apply words_concat_bytes; auto]. }
  induction r as [|r IH]; intros s Hr Hs; [rewrite inv_rounds_O|rewrite inv_rounds_S].
  - cbn [seq rev fold_left]. rewrite <- InvShiftRows_eq by exact Hs.
    rewrite <- InvSubBytes_eq by (apply invshift_st16, Hs).
    apply AddRoundKey_eq; auto; [lia|]. apply invsub_st16, invshift_st16, Hs.
  - rewrite seq_S, rev_app_distr. cbn [rev app fold_left Nat.add].
    assert (H1 : st16 (Invaes_sub_bytes (Invaes_shift_rows s))) by (apply invsub_st16, invshift_st16, Hs).
    assert (H2 : st16 (add_round_key (S r) (Invaes_sub_bytes (Invaes_shift_rows s)) (concat w)))
      by (apply (ark_st16 nr); [exact HK|lia|exact H1]).
    assert (E : Invaes_mix_columns (add_round_key (S r) (Invaes_sub_bytes (Invaes_shift_rows s)) (concat w))
      = inv_round_fn w s (S r)).
    { unfold inv_round_fn. rewrite <- InvShiftRows_eq by exact Hs.
      rewrite <- InvSubBytes_eq by (apply invshift_st16, Hs).
      rewrite <- (AddRoundKey_eq w (S r)) by (auto; lia). apply InvMixColumns_eq, H2. }
    rewrite E. apply IH; [lia|]. rewrite <- E. apply invmix_st16, H2.
Qed.
Lemma inv_cipher_eq : forall w nr c s, words_ok w -> length w = (4 * (nr + 1))%nat -> (0 < nr)%nat ->
  ae_rk c = concat w -> ae_nr c = nr -> st16 s -> aes_inv_cipher c s = InvCipher nr w s.
Proof.
  intros w nr c s Hw Hl Hn E1 E2 Hs. unfold aes_inv_cipher, InvCipher. rewrite E1, E2.
  assert (HK : rk_ok nr (concat w)).
  { split; [rewrite words_concat_len by auto; lia|apply words_concat_bytes; auto]. }
  assert (H0 : st16 (add_round_key nr s (concat w))) by (apply (ark_st16 nr); [exact HK|lia|exact Hs]).
  rewrite (inv_rounds_eq w nr) by (auto; lia). rewrite (AddRoundKey_eq w nr) by (auto; lia). reflexivity.
Qed.

(** * The block cipher after setkey *)
Definition valid_keylen (n : nat) : Prop := n = 16%nat \/ n = 24%nat \/ n = 32%nat.
Lemma setkey_ok : forall c0 key, valid_keylen (length key) -> bytes key ->
  exists c nk nr, aes_setkey c0 key = (0, c) /\ good_type nk nr /\ length key = (4 * nk)%nat /\
    nr = rounds_of (length key) /\ nk = (length key / 4)%nat /\
    ae_rk c = concat (KeyExpansion nk nr key) /\ ae_nr c = nr /\
    words_ok (KeyExpansion nk nr key) /\ length (KeyExpansion nk nr key) = (4 * (nr + 1))%nat /\
    rk_ok nr (ae_rk c) /\ (0 < nr)%nat.
Proof.
  intros c0 key Hl Hb. unfold aes_setkey, aes_set_type.
  assert (G : exists nk nr, (if (length key =? 16)%nat then Some (4%nat, 10%nat) else if (length key =? 24)%nat then Some (6%nat, 12%nat)
    else if (length key =? 32)%nat then Some (8%nat, 14%nat) else None) = Some (nk, nr) /\ good_type nk nr /\ length key = (4 * nk)%nat
    /\ nr = rounds_of (length key) /\ nk = (length key / 4)%nat).
  { destruct Hl as [->|[->| ->]]; do 2 eexists; (split; [reflexivity|]); unfold good_type;
      (split; [lia|]); repeat split. }
  destruct G as (nk&nr&->&G&Hk&Er&En).
  destruct (KeyExpansion_ok nk nr key G Hk Hb) as [W L].
  eexists; exists nk, nr. split; [reflexivity|]. cbn [ae_rk ae_nr]. rewrite (key_expansion_eq nk nr key G Hk Hb).
  assert (N : (0 < nr)%nat) by (unfold good_type in G; lia).
  split; [exact G|]. split; [exact Hk|]. split; [exact Er|]. split; [exact En|].
  split; [reflexivity|]. split; [reflexivity|]. split; [exact W|]. split; [exact L|]. split; [|exact N].
  split; [rewrite words_concat_len by exact W; lia|apply words_concat_bytes, W].
Qed.
Lemma enc_is : forall c blk out, length blk = 16%nat -> aes_encrypt c blk out = aes_cipher c blk.
Proof. intros c blk out H. unfold aes_encrypt. rewrite H. reflexivity. Qed.
Lemma dec_is : forall c blk out, length blk = 16%nat -> aes_decrypt c blk out = aes_inv_cipher c blk.
Proof. intros c blk out H. unfold aes_decrypt. rewrite H. reflexivity. Qed.
Lemma aes_enc_spec : forall c0 key blk out, valid_keylen (length key) -> bytes key -> length blk = 16%nat -> bytes blk ->
  aes_encrypt (snd (aes_setkey c0 key)) blk out = AES key blk.
Proof.
  intros c0 key blk out Hl Hb L B. destruct (setkey_ok c0 key Hl Hb) as (c&nk&nr&E&G&Hk&Er&En&E1&E2&W&LW&K&N).
  rewrite E. cbn [snd]. rewrite enc_is by exact L. unfold AES. rewrite <- Er, <- En.
  apply cipher_eq; auto. split; auto.
Qed.
Lemma aes_dec_spec : forall c0 key blk out, valid_keylen (length key) -> bytes key -> length blk = 16%nat -> bytes blk ->
  aes_decrypt (snd (aes_setkey c0 key)) blk out = AES_inv key blk.
Proof.
  intros c0 key blk out Hl Hb L B. destruct (setkey_ok c0 key Hl Hb) as (c&nk&nr&E&G&Hk&Er&En&E1&E2&W&LW&K&N).
  rewrite E. cbn [snd]. rewrite dec_is by exact L. unfold AES_inv. rewrite <- Er, <- En.
  apply inv_cipher_eq; auto. split; auto.
Qed.
(** Facts about FIPS 197 itself that the modes need. *)
Lemma AES_st16 : forall key blk, valid_keylen (length key) -> bytes key -> length blk = 16%nat -> bytes blk ->
  length (AES key blk) = 16%nat /\ bytes (AES key blk).
Proof.
  intros key blk Hl Hb L B. rewrite <- (aes_enc_spec (mkAes [] 0 0) key blk []) by auto.
  destruct (setkey_ok (mkAes [] 0 0) key Hl Hb) as (c&nk&nr&E&G&Hk&Er&En&E1&E2&W&LW&K&N). rewrite E. cbn [snd].
  rewrite enc_is by exact L. apply (cipher_st16 nr (ae_rk c) K c); auto. split; auto.
Qed.
Lemma AES_inv_st16 : forall key blk, valid_keylen (length key) -> bytes key -> length blk = 16%nat -> bytes blk ->
  length (AES_inv key blk) = 16%nat /\ bytes (AES_inv key blk).
Proof.
  intros key blk Hl Hb L B. rewrite <- (aes_dec_spec (mkAes [] 0 0) key blk []) by auto.
  destruct (setkey_ok (mkAes [] 0 0) key Hl Hb) as (c&nk&nr&E&G&Hk&Er&En&E1&E2&W&LW&K&N). rewrite E. cbn [snd].
  rewrite dec_is by exact L. apply (inv_cipher_st16 nr (ae_rk c) K c); auto. split; auto.
Qed.
Lemma AES_inv_AES : forall key blk, valid_keylen (length key) -> bytes key -> length blk = 16%nat -> bytes blk ->
  AES_inv key (AES key blk) = blk.
Proof.
  intros key blk Hl Hb L B. destruct (AES_st16 key blk Hl Hb L B) as [L1 B1].
  rewrite <- (aes_dec_spec (mkAes [] 0 0) key _ []) by auto. rewrite <- (aes_enc_spec (mkAes [] 0 0) key blk []) in * by auto.
  destruct (setkey_ok (mkAes [] 0 0) key Hl Hb) as (c&nk&nr&E&G&Hk&Er&En&E1&E2&W&LW&K&N). rewrite E in *. cbn [snd] in *.
  rewrite dec_is by exact L1. rewrite enc_is by exact L. apply (dec_enc nr (ae_rk c) K c); auto. split; auto.
Qed.
Lemma AES_AES_inv : forall key blk, valid_keylen (length key) -> bytes key -> length blk = 16%nat -> bytes blk ->
  AES key (AES_inv key blk) = blk.
Proof.
  intros key blk Hl Hb L B. destruct (AES_inv_st16 key blk Hl Hb L B) as [L1 B1].
  rewrite <- (aes_enc_spec (mkAes [] 0 0) key _ []) by auto. rewrite <- (aes_dec_spec (mkAes [] 0 0) key blk []) in * by auto.
  destruct (setkey_ok (mkAes [] 0 0) key Hl Hb) as (c&nk&nr&E&G&Hk&Er&En&E1&E2&W&LW&K&N). rewrite E in *. cbn [snd] in *.
  rewrite enc_is by exact L1. rewrite dec_is by exact L. apply (enc_dec nr (ae_rk c) K c); auto. split; auto.
Qed.
