(** The model of the C permutation equals Keccak-f of FIPS 202. *)
From Verif Require Import Bytes Words KeccakModel KeccakSpec.

Definition lanes25 (s : list Z) : Prop := length s = 25%nat /\ Forall w64 s.

(** Agreement of a lane array with a state array, on the domain. *)
Definition agrees (s : list Z) (a : state_array) : Prop :=
  forall x y z, 0 <= x < 5 -> 0 <= y < 5 -> 0 <= z < 64 -> array_of_lanes s x y z = a x y z.

Lemma rho_offset_table : map (fun i => rho_offset (Z.of_nat (i mod 5)) (Z.of_nat (i / 5)) mod 64) (seq 0 25)
  = [0;1;62;28;27; 36;44;6;55;20; 3;10;43;25;39; 41;45;15;21;8; 18;2;61;56;14].
Proof. vm_compute. reflexivity. Qed.

Ltac list25 s Hl :=
  do 25 (destruct s as [|? s]; [discriminate Hl|]); destruct s; [clear Hl|discriminate Hl].

Ltac splitw := repeat match goal with
  | H : Forall w64 (_ :: _) |- _ =>
      let a := fresh "W" in let b := fresh "F" in
      pose proof (Forall_inv H) as a; pose proof (Forall_inv_tail H) as b; clear H
  | H : Forall w64 [] |- _ => clear H
  end.

Lemma w64_andn : forall x y, w64 x -> w64 y -> w64 (Z.land (not64 x) y).
Proof. intros. apply w64_land; auto. apply w64_not in H. unfold w64 in H. lia. Qed.

Ltac wtac := repeat lazymatch goal with
  | |- w64 (rol64 _ _) => apply w64_rol
  | |- w64 (Z.lxor _ _) => apply w64_lxor
  | |- w64 (Z.land (not64 _) _) => apply w64_andn
  | |- w64 _ => assumption
  end.

Lemma theta_rho_pi_w64 : forall s, lanes25 s -> lanes25 (keccakp_theta_rho_pi s).
Proof.
  intros s [Hl Hf]. list25 s Hl. splitw.
  cbv beta iota zeta delta [keccakp_theta_rho_pi get A rol upd nth Nat.add Nat.mul].
  split; [reflexivity|].
  repeat (constructor; [wtac|]). constructor.
Qed.

Lemma get_Forall : forall s i, Forall w64 s -> w64 (get s i).
Proof.
  intros s i H. unfold get. destruct (Nat.lt_ge_cases i (length s)).
  - rewrite Forall_forall in H. apply H. apply nth_In; lia.
  - rewrite nth_overflow by lia. unfold w64; lia.
Qed.

Lemma iota_vals_w64 : Forall w64 keccakp_iota_vals.
Proof.
  apply Forall_forall. intros x Hx.
  assert (H : forallb (fun x => (0 <=? x) && (x <? 2 ^ 64)) keccakp_iota_vals = true)
    by (vm_compute; reflexivity).
  rewrite forallb_forall in H. apply H in Hx. unfold w64. lia.
Qed.

Lemma chi_iota_k_w64 : forall s k, w64 k -> lanes25 s -> lanes25 (keccakp_chi_iota_k s k).
Proof.
  intros s k Hk [Hl Hf]. list25 s Hl. splitw.
  cbv beta iota zeta delta [keccakp_chi_iota_k get A upd nth Nat.add Nat.mul].
  split; [reflexivity|].
  repeat (constructor; [wtac|]). constructor.
Qed.

Lemma chi_iota_w64 : forall s r, lanes25 s -> lanes25 (keccakp_chi_iota s r).
Proof. intros. apply chi_iota_k_w64; auto. apply get_Forall, iota_vals_w64. Qed.

Ltac cases5 x := let H := fresh in
  assert (H : x = 0 \/ x = 1 \/ x = 2 \/ x = 3 \/ x = 4) by lia;
  destruct H as [->|[->|[->|[->| ->]]]].

Ltac rho_norm := repeat match goal with
  | |- context [rho_offset ?a ?b] =>
      let v := eval vm_compute in (rho_offset a b) in change (rho_offset a b) with v
  end.

Lemma sub_mod64_reduce : forall z k, (z - k) mod 64 = (z - k mod 64) mod 64.
Proof.
  intros. rewrite Zminus_mod, (Zminus_mod z (k mod 64)), Z.mod_mod by lia. reflexivity.
Qed.

Lemma theta_rho_pi_ok : forall s a, lanes25 s -> agrees s a ->
  agrees (keccakp_theta_rho_pi s) (pi (rho (theta a))).
Proof.
  intros s a [Hl Hf] Ha x y z Hx Hy Hz.
  unfold pi, rho.
  rewrite sub_mod64_reduce.
  assert (Hz' : forall k, 0 <= (z - k) mod 64 < 64) by (intros; apply Z.mod_pos_bound; lia).
  assert (Ha' : forall x y z, 0 <= x < 5 -> 0 <= y < 5 -> 0 <= z < 64 ->
                  a x y z = array_of_lanes s x y z) by (intros; symmetry; apply Ha; auto).
  unfold theta. 
  rewrite !Ha' by (try apply Z.mod_pos_bound; try apply Hz'; lia).
  clear Ha Ha'.
  list25 s Hl. splitw.
  unfold array_of_lanes.
  match goal with |- context [keccakp_theta_rho_pi ?l] =>
    let v := eval cbv beta iota zeta delta [keccakp_theta_rho_pi get A rol upd nth Nat.add Nat.mul]
      in (keccakp_theta_rho_pi l) in
    let E := fresh "E" in
    assert (E : keccakp_theta_rho_pi l = v) by reflexivity; rewrite E; clear E end.
  cases5 x; cases5 y;
  rho_norm;
  repeat match goal with |- context [RHO_ROL ?t] =>
    let v := eval vm_compute in (RHO_ROL t) in change (RHO_ROL t) with v end;
  repeat match goal with |- context [Z.to_nat ?t] =>
    let v := eval vm_compute in (Z.to_nat t) in change (Z.to_nat t) with v end;
  repeat match goal with |- context [?k mod 64] =>
    lazymatch k with Zpos _ => idtac | 0 => idtac end;
    let v := eval vm_compute in (k mod 64) in change (k mod 64) with v end;
  cbn [nth];
  rewrite ?testbit_rol64 by (first [lia | wtac]);
  rewrite ?Z.sub_0_r, ?(Z.mod_small z 64) by lia;
  rewrite ?Z.lxor_spec;
  rewrite ?testbit_rol64 by (first [lia | apply Hz' | wtac]);
  rewrite ?Z.lxor_spec; reflexivity.
Qed.

Lemma iota_table : forall r, (r < 24)%nat -> forall z, 0 <= z < 64 ->
  Z.testbit (get keccakp_iota_vals r) z = RC r z.
Proof.
  assert (H : forallb (fun r => forallb (fun z => Bool.eqb
     (Z.testbit (get keccakp_iota_vals r) (Z.of_nat z)) (RC r (Z.of_nat z))) (seq 0 64)) (seq 0 24) = true)
    by (vm_compute; reflexivity).
  intros r Hr z Hz. rewrite forallb_forall in H.
  specialize (H r ltac:(apply in_seq; lia)). cbv beta in H. rewrite forallb_forall in H.
  specialize (H (Z.to_nat z)). rewrite Z2Nat.id in H by lia.
  apply Bool.eqb_prop. apply H. apply in_seq. lia.
Qed.

Lemma chi_iota_k_ok : forall s a k r, (forall z, 0 <= z < 64 -> Z.testbit k z = RC r z) ->
  lanes25 s -> agrees s a -> agrees (keccakp_chi_iota_k s k) (iota r (chi a)).
Proof.
  intros s a k r HR [Hl Hf] Ha x y z Hx Hy Hz.
  assert (Ha' : forall x y z, 0 <= x < 5 -> 0 <= y < 5 -> 0 <= z < 64 ->
                  a x y z = array_of_lanes s x y z) by (intros; symmetry; apply Ha; auto).
  unfold iota, chi.
  rewrite !Ha' by (try apply Z.mod_pos_bound; lia).
  clear Ha Ha'.
  list25 s Hl. splitw.
  unfold array_of_lanes.
  match goal with |- context [keccakp_chi_iota_k ?l ?k] =>
    let v := eval cbv beta iota zeta delta [keccakp_chi_iota_k get A upd nth Nat.add Nat.mul]
      in (keccakp_chi_iota_k l k) in
    let E := fresh "E" in
    assert (E : keccakp_chi_iota_k l k = v) by reflexivity; rewrite E; clear E end.
  cases5 x; cases5 y;
  repeat match goal with |- context [Z.to_nat ?t] =>
    let v := eval vm_compute in (Z.to_nat t) in change (Z.to_nat t) with v end;
  cbn [nth Z.eqb andb];
  rewrite ?Z.lxor_spec, ?Z.land_spec, ?testbit_not64, ?HR by lia;
  rewrite ?xorb_true_r; reflexivity.
Qed.

Lemma chi_iota_ok : forall s a r, (r < 24)%nat -> lanes25 s -> agrees s a ->
  agrees (keccakp_chi_iota s r) (iota r (chi a)).
Proof. intros. apply chi_iota_k_ok; auto. apply iota_table; auto. Qed.

Lemma round_ok : forall s a r, (r < 24)%nat -> lanes25 s -> agrees s a ->
  lanes25 (keccak_round s r) /\ agrees (keccak_round s r) (Rnd a r).
Proof.
  intros s a r Hr Hs Ha. unfold keccak_round, Rnd.
  pose proof (theta_rho_pi_w64 s Hs) as H1.
  split.
  - exact (chi_iota_w64 _ r H1).
  - exact (chi_iota_ok _ _ r Hr H1 (theta_rho_pi_ok s a Hs Ha)).
Qed.

Lemma fold_left_rel : forall (A B C : Type) (R : A -> B -> Prop) (f : A -> C -> A) (g : B -> C -> B) l,
  (forall a b c, In c l -> R a b -> R (f a c) (g b c)) ->
  forall a b, R a b -> R (fold_left f l a) (fold_left g l b).
Proof.
  intros A B C R f g l. induction l as [|c l IH]; intros H a b Hab; simpl; auto.
  apply IH; [intros; apply H; simpl; auto|]. apply H; simpl; auto.
Qed.

Lemma keccakp_1600_spec : forall s, lanes25 s ->
  lanes25 (keccakp_1600 s) /\
  (forall x y z, 0 <= x < 5 -> 0 <= y < 5 -> 0 <= z < 64 ->
     array_of_lanes (keccakp_1600 s) x y z = keccak_f (array_of_lanes s) x y z).
Proof.
  intros s Hs.
  refine (fold_left_rel _ _ _ (fun s a => lanes25 s /\ agrees s a) keccak_round Rnd (seq 0 24) _ s
            (array_of_lanes s) (conj Hs _)).
  - intros s' a r Hr [H1 H2]. apply in_seq in Hr. exact (round_ok s' a r (proj2 Hr) H1 H2).
  - intros x y z _ _ _. reflexivity.
Qed.
