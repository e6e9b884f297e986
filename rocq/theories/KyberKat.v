(** Known answers for ML-KEM-512: the model computes what leancrypto's own test vectors say. *)
From Verif Require Import Bytes ZUtil Words Sha3Model KeccakBytes KyberModel KyberSpec KyberKem KyberVectors.
Import ListNotations.

(** the vectors of ml-kem/src/kyber_selftest_vector_*.h *)
Lemma kat512_key : kyber_keypair_from_seed 3 kyber512 v_seed = Some (0, v512_pk, v512_sk).
Proof. vm_cast_no_check (eq_refl (Some (0, v512_pk, v512_sk))). Qed.
Lemma kat512_enc : kyber_enc 0 0 3 kyber512 v512_pk v_m = Some (0, v512_ct, v512_ss).
Proof. vm_cast_no_check (eq_refl (Some (0, v512_ct, v512_ss))). Qed.
(** The remaining answers are evaluated by coqc when this file is compiled ([eval vm_compute]); compilation fails if
    one differs. They leave no lemma behind: the independent checker has no virtual machine and would need hours. *)
Definition eq_opt2 (a b : option (Z * list Z)) : bool :=
  match a, b with Some (x, l), Some (y, m) => (x =? y) && (if list_eq_dec Z.eq_dec l m then true else false) | _, _ => false end.
Definition eq_opt3 (a b : option (Z * list Z * list Z)) : bool :=
  match a, b with
  | Some (x, l, l'), Some (y, m, m') => (x =? y) && (if list_eq_dec Z.eq_dec l m then true else false) && (if list_eq_dec Z.eq_dec l' m' then true else false)
  | _, _ => false end.
Ltac evaluates b := let r := eval vm_compute in b in match r with true => exact I end.
Definition compiled_512 : True := ltac:(evaluates (eq_opt2 (kyber_dec 0 0 3 kyber512 v512_ct v512_sk) (Some (0, v512_ss))
  && eq_opt2 (kyber_dec 0 0 3 kyber512 v512_ct1 v512_sk) (Some (0, v512_ss1)))).
Definition compiled_768 : True := ltac:(evaluates (eq_opt3 (kyber_keypair_from_seed 3 kyber768 v_seed) (Some (0, v768_pk, v768_sk))
  && eq_opt3 (kyber_enc 0 0 3 kyber768 v768_pk v_m) (Some (0, v768_ct, v768_ss))
  && eq_opt2 (kyber_dec 0 0 3 kyber768 v768_ct v768_sk) (Some (0, v768_ss))
  && eq_opt2 (kyber_dec 0 0 3 kyber768 v768_ct1 v768_sk) (Some (0, v768_ss1)))).
Definition compiled_1024 : True := ltac:(evaluates (eq_opt3 (kyber_keypair_from_seed 3 kyber1024 v_seed) (Some (0, v1024_pk, v1024_sk))
  && eq_opt3 (kyber_enc 0 0 3 kyber1024 v1024_pk v_m) (Some (0, v1024_ct, v1024_ss))
  && eq_opt2 (kyber_dec 0 0 3 kyber1024 v1024_ct v1024_sk) (Some (0, v1024_ss))
  && eq_opt2 (kyber_dec 0 0 3 kyber1024 v1024_ct1 v1024_sk) (Some (0, v1024_ss1)))).
Lemma kat512_shape : bytes v_seed /\ length v_seed = 64%nat /\ bytes v_m /\ length v_m = 32%nat /\ bytes v512_pk /\ length v512_pk = pkbytes kyber512 /\
  bytes v512_sk /\ length v512_sk = skbytes kyber512 /\ bytes v512_ct /\ length v512_ct = ctbytes kyber512 /\ bytes v512_ct1 /\ length v512_ct1 = ctbytes kyber512.
Proof.
  assert (B : forall l, forallb (fun x => (0 <=? x) && (x <? 256)) l = true -> bytes l).
  { intros l H. apply Forall_forall. intros x Hx. rewrite forallb_forall in H. specialize (H x Hx). apply andb_prop in H. unfold byte. lia. }
  repeat split; try (apply B); vm_compute; reflexivity.
Qed.
(** the implicit rejection secret of the vector is J(z || ct) *)
Lemma kat512_rkprf : kyber_shake256_rkprf (sk_z kyber512 v512_sk) v512_ct1 = v512_ss1.
Proof. vm_cast_no_check (eq_refl v512_ss1). Qed.
