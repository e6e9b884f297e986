(** * C103: X25519 *)
From Coq Require Import ZArith List Bool Lia.
From Verif Require Import Curve25519Model X25519Spec Curve25519Proof Curve25519Bytes.
Import ListNotations.
Open Scope Z_scope.

(** the u coordinates whose points have order 1, 2, 4 or 8 on the curve
    v^2 = u^3 + 486662 u^2 + u or on its twist *)
Definition small_u : list Z :=
  [ 0; 1; 325606250916557431795983626356110631294008115727848805560023387167927233504;
    39382357235489614581723060781553021112529911719440698176882885853963445705823; p25519 - 1 ].

(** doubling of a u coordinate X/Z (RFC 7748 curve; Montgomery's formula) *)
Definition dbl (P : Z * Z) : Z * Z :=
  let '(X, Zc) := P in
  (((X * X - Zc * Zc) ^ 2) mod p25519,
   (4 * X * Zc * (X * X + 486662 * X * Zc + Zc * Zc)) mod p25519).

Definition bytes32 (l : list Z) : Prop := length l = 32%nat /\ Forall (fun b => 0 <= b < 256) l.

Lemma blocked_iff : forall p, bytes32 p ->
  existsb (fun b => decode_u p =? le b) blocklist = true <-> In (decode_u p mod p25519) small_u.
Proof.
  intros p _. assert (R : 0 <= decode_u p < 2 ^ 255) by (apply Z.mod_pos_bound; reflexivity).
  generalize dependent (decode_u p). intros v R.
  unfold small_u. rewrite p25519_eq.
  replace (existsb (fun b => v =? le b) blocklist) with (existsb (Z.eqb v) (map le blocklist))
    by (generalize blocklist as l; induction l as [|x l IH]; [reflexivity|cbn [map existsb]; now rewrite IH]).
  rewrite existsb_exists.
  match goal with |- (exists x, In x ?l /\ _) <-> _ =>
    let l' := eval vm_compute in l in
    assert (El : l = l') by (vm_compute; reflexivity); rewrite El; clear El end.
  change (2 ^ 255) with 57896044618658097711785492504343953926634992332820282019728792003956564819968 in R.
  set (P := 57896044618658097711785492504343953926634992332820282019728792003956564819949).
  pose proof (Z.div_mod v P ltac:(unfold P; lia)) as D. pose proof (Z.mod_pos_bound v P ltac:(unfold P; lia)) as M.
  generalize dependent (v mod P). intros r D M. generalize dependent (v / P). intros q D. unfold P in *. clear P.
  split.
  - intros (x & Hx & E). apply Z.eqb_eq in E. subst x. cbn [In] in Hx |- *. lia.
  - intros H. exists v. split; [|apply Z.eqb_refl]. cbn [In] in H |- *. lia.
Qed.

(** Every scalar and every point that is not of small order: the function of
    RFC 7748 is returned. *)
Theorem C103_x25519 : forall n p, bytes32 n -> bytes32 p ->
  ~ In (decode_u p mod p25519) small_u -> scalarmult n p = (0, Some (x25519 n p)).
Proof.
  intros n p [Ln Hn] [Lp Hp] H. rewrite scalarmult_ok by assumption.
  destruct (existsb _ _) eqn:E; [|reflexivity]. exfalso. apply H. apply blocked_iff; [split; assumption|exact E].
Qed.
Print Assumptions C103_x25519.

(** ... and a point is refused exactly when it is one of the five. *)
Theorem C103_refused : forall n p, bytes32 n -> bytes32 p ->
  (scalarmult n p = (-1, None) <-> In (decode_u p mod p25519) small_u).
Proof.
  intros n p [Ln Hn] [Lp Hp]. rewrite scalarmult_ok by assumption.
  rewrite <- blocked_iff by (split; assumption).
  destruct (existsb _ _); split; try reflexivity; discriminate.
Qed.
Print Assumptions C103_refused.

(** The five really are of small order: three doublings reach the point at
    infinity. *)
Theorem C103_small : forall u, In u small_u -> snd (dbl (dbl (dbl (u, 1)))) = 0.
Proof.
  assert (H : forallb (fun u => snd (dbl (dbl (dbl (u, 1)))) =? 0) small_u = true) by (vm_compute; reflexivity).
  intros u Hu. apply Z.eqb_eq. exact (proj1 (forallb_forall _ _) H u Hu).
Qed.
Print Assumptions C103_small.

(** lc_x25519_ss: null pointers are refused, and the caller's buffer is only
    written on success. *)
Theorem C103_api : forall ss pk sk,
  (forall n, sk = Some n -> bytes32 n) -> (forall p, pk = Some p -> bytes32 p) ->
  x25519_ss ss pk sk =
  match sk, pk, ss with
  | Some n, Some p, Some s =>
      if in_dec Z.eq_dec (decode_u p mod p25519) small_u then (-1, Some s) else (0, Some (x25519 n p))
  | _, _, _ => (-22, ss)
  end.
Proof.
  intros ss pk sk Hn Hp. unfold x25519_ss.
  destruct sk as [n|]; [|reflexivity]. destruct pk as [p|]; [|reflexivity]. destruct ss as [s|]; [|reflexivity].
  specialize (Hn n eq_refl). specialize (Hp p eq_refl).
  destruct (in_dec _ _ _) as [I|I].
  - now rewrite (proj2 (C103_refused n p Hn Hp) I).
  - now rewrite (C103_x25519 n p Hn Hp I).
Qed.
Print Assumptions C103_api.

(** Neither the top bit of the point, nor the bits the scalar clamping
    overwrites, matter. *)
Theorem C103_ignored_bits : forall n n' p p', bytes32 n -> bytes32 n' -> bytes32 p -> bytes32 p' ->
  le n mod 2 ^ 254 / 8 = le n' mod 2 ^ 254 / 8 -> le p mod 2 ^ 255 = le p' mod 2 ^ 255 ->
  scalarmult n p = scalarmult n' p'.
Proof.
  intros n n' p p' [Ln Hn] [Ln' Hn'] [Lp Hp] [Lp' Hp'] En Ep. rewrite !scalarmult_ok by assumption.
  unfold x25519, decode_u, decode_scalar. rewrite En, Ep. reflexivity.
Qed.
Print Assumptions C103_ignored_bits.

(** The first vector of RFC 7748 5.2 meets the hypotheses.  (That [scalarmult]
    yields the published output c3da5537...2552 on it was computed with
    vm_compute while writing this; it is left out because the independent
    checker, which has no VM, needs more than ten minutes for it.) *)
Definition rfc_k : list Z := [165; 70; 227; 107; 240; 82; 124; 157; 59; 22; 21; 75; 130; 70; 94; 221; 98; 20; 76; 10; 193; 252; 90; 24; 80; 106; 34; 68; 186; 68; 154; 196].
Definition rfc_u : list Z := [230; 219; 104; 103; 88; 48; 48; 219; 53; 148; 193; 164; 36; 177; 95; 124; 114; 102; 36; 236; 38; 179; 53; 59; 16; 169; 3; 166; 208; 171; 28; 76].
Lemma bytes32_b : forall l, Nat.eqb (length l) 32 && forallb (fun b => (0 <=? b) && (b <? 256)) l = true -> bytes32 l.
Proof.
  intros l H. apply andb_prop in H. destruct H as [L H]. apply Nat.eqb_eq in L. split; [exact L|].
  apply Forall_forall. intros x Hx. pose proof (proj1 (forallb_forall _ _) H x Hx) as Q. cbn beta in Q.
  apply andb_prop in Q. lia.
Qed.
Example C103_ex : bytes32 rfc_k /\ bytes32 rfc_u /\ ~ In (decode_u rfc_u mod p25519) small_u /\
  scalarmult rfc_k rfc_u = (0, Some (x25519 rfc_k rfc_u)).
Proof.
  assert (K : bytes32 rfc_k) by (apply bytes32_b; reflexivity).
  assert (U : bytes32 rfc_u) by (apply bytes32_b; reflexivity).
  assert (N : ~ In (decode_u rfc_u mod p25519) small_u).
  { assert (B : existsb (Z.eqb (decode_u rfc_u mod p25519)) small_u = false) by (vm_compute; reflexivity).
    intros H. rewrite <- not_true_iff_false in B. apply B. apply existsb_exists. eexists. split; [exact H|apply Z.eqb_refl]. }
  split; [exact K|]. split; [exact U|]. split; [exact N|].
  exact (C103_x25519 rfc_k rfc_u K U N).
Qed.
Example C103_ex_refused : scalarmult rfc_k (1 :: repeat 0 31) = (-1, None).
Proof.
  apply C103_refused; try (apply bytes32_b; reflexivity). right. left. vm_compute. reflexivity.
Qed.
