(** Model of ml-kem/src/kyber_kex.c, kyber_ies.c and of the hybrid ML-KEM + X25519 code
    (kyber_x25519_kdf.h, kyber_x25519_kem.c, kyber_x25519_kex.c, kyber_x25519_ies.c).
    As in KyberModel.v: [ad1] [ad2] are the addresses handed to the constant time compare, [fuel] bounds the
    rejection sampling, [None] means that the fuel did not suffice, random bytes are arguments in the order in
    which the code draws them. When a function fails its output buffers hold no result; the model returns the
    code alone. *)
From Verif Require Import Bytes Words Sha3Model KeccakBytes HashIface KmacModel UtilModel KyberModel.

(** result of a call: fuel exhausted, error code, or success with a value *)
Definition res (A : Type) := option (Z * option A).
Definition rret {A : Type} (a : A) : res A := Some (0, Some a).
(** CKINT [internal/api/ret_checkers.h]: go on only when the code is 0. (The macro tests < 0; every callee
    here returns 0 or a negative number.) *)
Definition rbind {A B : Type} (x : res A) (f : A -> res B) : res B :=
  match x with
  | Some (_, Some a) => f a
  | Some (ret, None) => Some (ret, None)
  | None => None
  end.

Section Kex.
  Variables (ad1 ad2 : Z) (fuel : nat) (p : kparams).
  (** the KEM calls *)
  (** [kyber_kem.c: 84-112] with the 64 random bytes drawn by lc_kyber_keypair *)
  Definition r_keypair (seed : list Z) : res (list Z * list Z) :=
    match kyber_keypair_from_seed fuel p seed with
    | Some (ret, pk, sk) => if ret =? 0 then rret (pk, sk) else Some (ret, None) | None => None end.
  Definition r_enc (pk m : list Z) : res (list Z * list Z) :=
    match kyber_enc ad1 ad2 fuel p pk m with
    | Some (ret, ct, ss) => if ret =? 0 then rret (ct, ss) else Some (ret, None) | None => None end.
  Definition r_dec (ct sk : list Z) : res (list Z) :=
    match kyber_dec ad1 ad2 fuel p ct sk with
    | Some (ret, ss) => if ret =? 0 then rret ss else Some (ret, None) | None => None end.

  (** ** kyber_kex.c *)
  (** [kyber_kex.c: 35-49] and [kyber_kex.c: 111-125]: pk_e_i, ct_e_i, tk, sk_e *)
  Definition kex_initiator_init (seed m pk_r : list Z) : res (list Z * list Z * list Z * list Z) :=
    rbind (r_keypair seed) (fun '(pk_e, sk_e) => rbind (r_enc pk_r m) (fun '(ct_e_i, tk) => rret (pk_e, ct_e_i, tk, sk_e))).
  (** [kyber_kex.c: 60-78]: ct_e_r, shared secret *)
  Definition kex_uake_responder_ss (n : nat) (nonce pk_e_i ct_e_i sk_r m : list Z) : res (list Z * list Z) :=
    rbind (r_enc pk_e_i m) (fun '(ct_e_r, ss0) => rbind (r_dec ct_e_i sk_r) (fun ss1 =>
      rret (ct_e_r, kyber_kdf3 ss0 ss1 nonce n))).
  (** [kyber_kex.c: 93-109] *)
  Definition kex_uake_initiator_ss (n : nat) (nonce ct_e_r tk sk_e : list Z) : res (list Z) :=
    rbind (r_dec ct_e_r sk_e) (fun ss => rret (kyber_kdf3 ss tk nonce n)).
  (** [kyber_kex.c: 136-157] *)
  Definition kex_ake_responder_ss (n : nat) (nonce pk_e_i ct_e_i sk_r pk_i m1 m2 : list Z) : res (list Z * list Z * list Z) :=
    rbind (r_enc pk_e_i m1) (fun '(ct_e_r_1, ss0) => rbind (r_enc pk_i m2) (fun '(ct_e_r_2, ss1) =>
      rbind (r_dec ct_e_i sk_r) (fun ss2 => rret (ct_e_r_1, ct_e_r_2, kyber_kdf4 ss0 ss1 ss2 nonce n)))).
  (** [kyber_kex.c: 173-193] *)
  Definition kex_ake_initiator_ss (n : nat) (nonce ct_e_r_1 ct_e_r_2 tk sk_e sk_i : list Z) : res (list Z) :=
    rbind (r_dec ct_e_r_1 sk_e) (fun ss0 => rbind (r_dec ct_e_r_2 sk_i) (fun ss1 => rret (kyber_kdf4 ss0 ss1 tk nonce n))).

  (** ** kyber_ies.c. The AEAD is a parameter: setkey, oneshot encryption and decryption [aead/src/aead_api.c] *)
  Section Ies.
    Variable S : Type.
    Variable setkey : S -> list Z -> list Z -> Z * S.
    Variable encrypt : S -> list Z -> list Z -> list Z -> Z * list Z * list Z.
    Variable decrypt : S -> list Z -> list Z -> list Z -> Z * list Z.
    Definition r_enc_kdf (pk m : list Z) (n : nat) : res (list Z * list Z) :=
      match kyber_enc_kdf ad1 ad2 fuel p pk m n with
      | Some (ret, ct, ss) => if ret =? 0 then rret (ct, ss) else Some (ret, None) | None => None end.
    Definition r_dec_kdf (ct sk : list Z) (n : nat) : res (list Z) :=
      match kyber_dec_kdf ad1 ad2 fuel p ct sk n with
      | Some (ret, ss) => if ret =? 0 then rret ss else Some (ret, None) | None => None end.
    Definition r_setkey (s : S) (ss : list Z) : res S :=
      let '(ret, s) := setkey s (firstn 32 ss) (skipn 32 ss) in if ret =? 0 then rret s else Some (ret, None).
    (** [kyber_ies.c: 346-367] KEM ciphertext, data ciphertext, tag; the code of lc_aead_encrypt is dropped *)
    Definition ies_enc (s : S) (pk m pt aad tagbuf : list Z) : res (list Z * list Z * list Z) :=
      rbind (r_enc_kdf pk m 48) (fun '(ct, ss) => rbind (r_setkey s ss) (fun s =>
        let '(_, c, t) := encrypt s aad pt tagbuf in rret (ct, c, t))).
    (** [kyber_ies.c: 413-433] *)
    Definition ies_dec (s : S) (sk ct c aad tag : list Z) : res (list Z) :=
      rbind (r_dec_kdf ct sk 48) (fun ss => rbind (r_setkey s ss) (fun s =>
        let '(ret, pt) := decrypt s aad c tag in if ret =? 0 then rret pt else Some (ret, None))).
  End Ies.

  (** ** the hybrid. X25519 [curve25519/src/x25519*.c] is a parameter: secret key of 32 random bytes, public key of a
      secret key, shared secret of a public key and a secret key (with the return code). *)
  (** "Kyber X25519 KEM SS", "Kyber X25519 KEM 3-way SS", "Kyber X25519 KEM 4-way SS" *)
  Definition lbl_x : list Z := [75; 121; 98; 101; 114; 32; 88; 50; 53; 53; 49; 57; 32; 75; 69; 77; 32; 83; 83].
  Definition lbl_x3 : list Z := [75; 121; 98; 101; 114; 32; 88; 50; 53; 53; 49; 57; 32; 75; 69; 77; 32; 51; 45; 119; 97; 121; 32; 83; 83].
  Definition lbl_x4 : list Z := [75; 121; 98; 101; 114; 32; 88; 50; 53; 53; 49; 57; 32; 75; 69; 77; 32; 52; 45; 119; 97; 121; 32; 83; 83].
  (** struct lc_kyber_x25519_ss / _ct / _pk / _sk: the two halves, adjacent in memory
      [ml-kem/api/lc_kyber.h.in; ml-kem/api/lc_kyber_x25519*.h.in]. sizeof(struct lc_kyber_ss) = 32. *)
  (** [kyber_x25519_kdf.h: 41-56]: the key length is sizeof(struct lc_kyber_ss), not of the hybrid struct *)
  Definition kyber_x25519_ss_kdf (n : nat) (ct ct_x ss ss_x : list Z) : list Z :=
    k_kmac (firstn 32 (ss ++ ss_x)) lbl_x [ct ++ ct_x] n.
  (** [kyber_x25519_kdf.h: 73-96], [kyber_x25519_kdf.h: 115-141] *)
  Definition kyber_x25519_kdf3 (s0 s1 : list Z * list Z) (nonce : list Z) (n : nat) : list Z :=
    k_kmac (fst s0 ++ snd s0) lbl_x3 [fst s1 ++ snd s1; nonce] n.
  Definition kyber_x25519_kdf4 (s0 s1 s2 : list Z * list Z) (nonce : list Z) (n : nat) : list Z :=
    k_kmac (fst s0 ++ snd s0) lbl_x4 [fst s1 ++ snd s1; fst s2 ++ snd s2; nonce] n.
  Section X.
    Variable x_sk : list Z -> list Z.
    Variable x_pk : list Z -> list Z.
    Variable x_ss : list Z -> list Z -> Z * list Z.
    Definition pair2 := (list Z * list Z)%type.
    Definition r_xss (pk sk : list Z) : res (list Z) :=
      let '(ret, ss) := x_ss pk sk in if ret =? 0 then rret ss else Some (ret, None).
    (** [kyber_x25519_kem.c: 29-39] *)
    Definition xkeypair (seed rx : list Z) : res (pair2 * pair2) :=
      rbind (r_keypair seed) (fun '(pk, sk) => rret ((pk, x_pk (x_sk rx)), (sk, x_sk rx))).
    (** [kyber_x25519_kem.c: 41-57] *)
    Definition xenc (pk : pair2) (m rx : list Z) : res (pair2 * pair2) :=
      rbind (r_enc (fst pk) m) (fun '(ct, ss) =>
      rbind (r_xss (snd pk) (x_sk rx)) (fun ssx => rret ((ct, x_pk (x_sk rx)), (ss, ssx)))).
    (** [kyber_x25519_kem.c: 84-95] *)
    Definition xdec (ct sk : pair2) : res pair2 :=
      rbind (r_dec (fst ct) (fst sk)) (fun ss => rbind (r_xss (snd ct) (snd sk)) (fun ssx => rret (ss, ssx))).
    (** [kyber_x25519_kem.c: 59-74, 97-111] *)
    Definition xenc_kdf (n : nat) (pk : pair2) (m rx : list Z) : res (pair2 * list Z) :=
      rbind (xenc pk m rx) (fun '(ct, ss) => rret (ct, kyber_x25519_ss_kdf n (fst ct) (snd ct) (fst ss) (snd ss))).
    Definition xdec_kdf (n : nat) (ct sk : pair2) : res (list Z) :=
      rbind (xdec ct sk) (fun ss => rret (kyber_x25519_ss_kdf n (fst ct) (snd ct) (fst ss) (snd ss))).
    (** [kyber_x25519_kex.c: 34-46, 112-124] *)
    Definition xkex_initiator_init (seed rx m rx' : list Z) (pk_r : pair2) : res (pair2 * pair2 * pair2 * pair2) :=
      rbind (xkeypair seed rx) (fun '(pk_e, sk_e) => rbind (xenc pk_r m rx') (fun '(ct, tk) => rret (pk_e, ct, tk, sk_e))).
    (** [kyber_x25519_kex.c: 59-78] *)
    Definition xkex_uake_responder_ss (n : nat) (nonce : list Z) (pk_e_i ct_e_i sk_r : pair2) (m rx : list Z) : res (pair2 * list Z) :=
      rbind (xenc pk_e_i m rx) (fun '(ct_e_r, ss0) => rbind (xdec ct_e_i sk_r) (fun ss1 => rret (ct_e_r, kyber_x25519_kdf3 ss0 ss1 nonce n))).
    (** [kyber_x25519_kex.c: 93-110] *)
    Definition xkex_uake_initiator_ss (n : nat) (nonce : list Z) (ct_e_r tk sk_e : pair2) : res (list Z) :=
      rbind (xdec ct_e_r sk_e) (fun ss => rret (kyber_x25519_kdf3 ss tk nonce n)).
    (** [kyber_x25519_kex.c: 137-158] *)
    Definition xkex_ake_responder_ss (n : nat) (nonce : list Z) (pk_e_i ct_e_i sk_r pk_i : pair2) (m1 rx1 m2 rx2 : list Z) : res (pair2 * pair2 * list Z) :=
      rbind (xenc pk_e_i m1 rx1) (fun '(c1, ss0) => rbind (xenc pk_i m2 rx2) (fun '(c2, ss1) =>
        rbind (xdec ct_e_i sk_r) (fun ss2 => rret (c1, c2, kyber_x25519_kdf4 ss0 ss1 ss2 nonce n)))).
    (** [kyber_x25519_kex.c: 175-195] *)
    Definition xkex_ake_initiator_ss (n : nat) (nonce : list Z) (c1 c2 tk sk_e sk_i : pair2) : res (list Z) :=
      rbind (xdec c1 sk_e) (fun ss0 => rbind (xdec c2 sk_i) (fun ss1 => rret (kyber_x25519_kdf4 ss0 ss1 tk nonce n))).
  End X.
End Kex.
