(** ML-KEM as FIPS 203 defines it, written down without reference to the C code.
    Polynomials over Z_q are lists of 256 integers in [0, q). *)
From Verif Require Import Bytes Fips202 PolyRing.

Definition q : Z := 3329.
Definition zeta17 : Z := 17.

(** Z_q^256 *)
Definition Rq (f : list Z) : Prop := length f = 256%nat /\ Forall (fun x => 0 <= x < q) f.
(** representative of least absolute value *)
Definition cmod (x : Z) : Z := (x + 1664) mod q - 1664.

(** ** the ring Z_q[X]/(X^256 + 1) *)
Definition Rmul (a b : list Z) : list Z := M q (conv (-1) 256 a b).
Definition Radd (a b : list Z) : list Z := M q (padd a b).
Definition Rsub (a b : list Z) : list Z := M q (psub a b).
Definition Rzero : list Z := zeros 256.

(** ** NTT, Section 4.3 *)
(** BitRev7: reversal of a seven bit number *)
Fixpoint bitrev (n : nat) (i : Z) : Z :=
  match n with O => 0 | S n' => (i mod 2) * 2 ^ Z.of_nat n' + bitrev n' (i / 2) end.
Definition BitRev7 (i : nat) : Z := bitrev 7 (Z.of_nat i).
(** zeta^(2 BitRev7(i) + 1) mod q *)
Fixpoint powq (b : Z) (e : nat) : Z := match e with O => 1 | S e' => (b * powq b e') mod q end.
Definition gam (i : nat) : Z := powq zeta17 (Z.to_nat (2 * BitRev7 i + 1)).
(** equation (4.12): f^[2i] = sum f_2j zeta^((2 BitRev7(i) + 1) j), f^[2i+1] the same for the odd
    coefficients *)
Definition NTT (f : list Z) : list Z :=
  map (fun n => zsum 128 (fun j => nth (2 * j + n mod 2) f 0 * powq (gam (n / 2)) j) mod q) (seq 0 256).
(** the inverse: (f_2j) = 128^-1 sum f^[2i] zeta^(-(2 BitRev7(i) + 1) j); 3303 = 128^-1,
    zeta^256 = 1 so that x^-1 = x^255 *)
Definition NTTinv (g : list Z) : list Z :=
  map (fun n => (3303 * zsum 128 (fun i => nth (2 * i + n mod 2) g 0 * powq (powq (gam i) 255) (n / 2))) mod q) (seq 0 256).
(** Algorithms 11, 12 *)
Definition MultiplyNTTs (f g : list Z) : list Z :=
  map (fun n => let i := (n / 2)%nat in
    if (n mod 2 =? 0)%nat
    then (nth (2 * i) f 0 * nth (2 * i) g 0 + nth (2 * i + 1) f 0 * nth (2 * i + 1) g 0 * gam i) mod q
    else (nth (2 * i) f 0 * nth (2 * i + 1) g 0 + nth (2 * i + 1) f 0 * nth (2 * i) g 0) mod q) (seq 0 256).
Fixpoint dotNTT (a b : list (list Z)) : list Z :=
  match a, b with
  | x :: a', y :: b' => Radd (MultiplyNTTs x y) (dotNTT a' b')
  | _, _ => Rzero
  end.

(** ** Compression, Section 4.2.1: round(2^d/q x) mod 2^d and round(q/2^d y), halves up *)
Definition Compress (d : Z) (x : Z) : Z := ((2 * 2 ^ d * x + q) / (2 * q)) mod 2 ^ d.
Definition Decompress (d : Z) (y : Z) : Z := (2 * q * y + 2 ^ d) / (2 * 2 ^ d).

(** ** Encoding *)
Fixpoint val_bits (l : list bool) : Z :=
  match l with [] => 0 | b :: l' => Z.b2z b + 2 * val_bits l' end.
(** bit [n] of a sequence of [d]-bit numbers *)
Definition fbit (d : nat) (F : list Z) (n : nat) : bool := Z.testbit (nth (n / d) F 0) (Z.of_nat (n mod d)).
(** Algorithm 5: ByteEncode_d, Algorithm 6: ByteDecode_d (before the reduction for d = 12) *)
Definition ByteEncode (d : nat) (F : list Z) : list Z :=
  map (fun k => val_bits (map (fun j => fbit d F (8 * k + j)) (seq 0 8))) (seq 0 (32 * d)).
Definition ByteDecode (d : nat) (B : list Z) : list Z :=
  map (fun i => val_bits (map (fun j => fbit 8 B (d * i + j)) (seq 0 d))) (seq 0 256).

(** ** Sampling *)
(** Algorithm 8: SamplePolyCBD_eta *)
Definition SamplePolyCBD (eta : nat) (B : list Z) : list Z :=
  map (fun i => (zsum eta (fun j => Z.b2z (fbit 8 B (2 * i * eta + j)))
               - zsum eta (fun j => Z.b2z (fbit 8 B (2 * i * eta + eta + j)))) mod q) (seq 0 256).
(** Algorithm 7: SampleNTT. The candidates of a byte string, three bytes at a time *)
Fixpoint candidates (B : list Z) : list Z :=
  match B with
  | c0 :: c1 :: c2 :: B' => (c0 + 256 * (c1 mod 16)) :: (c1 / 16 + 16 * c2) :: candidates B'
  | _ => []
  end.
Definition accepted (B : list Z) : list Z := filter (fun x => x <? q) (candidates B).
(** [a] is SampleNTT(B): the first 256 accepted candidates of the stream SHAKE128(B) *)
Definition SampleNTT (B : list Z) (a : list Z) : Prop :=
  length a = 256%nat /\ exists n, firstn 256 (accepted (SHAKE128 B (3 * n))) = a.

(** ** Functions, Section 4.1 *)
Definition PRF (eta : nat) (s : list Z) (b : nat) : list Z := SHAKE256 (s ++ [Z.of_nat b]) (64 * eta).
Definition Gh (c : list Z) : list Z := SHA3 64 c.
Definition Hh (c : list Z) : list Z := SHA3 32 c.
Definition Jh (c : list Z) : list Z := SHAKE256 c 32.

(** ** K-PKE, Section 5. Parameters k, eta1, du, dv; eta2 = 2 *)
Section KPKE.
  Variables (k eta1 du dv : nat).
  (** the matrix of the seed rho: A[i][j] = SampleNTT(rho || j || i) *)
  Definition is_matrix (rho : list Z) (A : list (list (list Z))) : Prop :=
    length A = k /\
    (forall i, (i < k)%nat -> length (nth i A []) = k /\
     forall j, (j < k)%nat -> SampleNTT (rho ++ [Z.of_nat j] ++ [Z.of_nat i]) (nth j (nth i A []) [])).
  Definition transpose (A : list (list (list Z))) : list (list (list Z)) :=
    map (fun j => map (fun i => nth j (nth i A []) []) (seq 0 k)) (seq 0 k).
  Definition noise (eta : nat) (s : list Z) (start : nat) : list (list Z) :=
    map (fun i => SamplePolyCBD eta (PRF eta s (start + i))) (seq 0 k).
  Definition vadd (a b : list (list Z)) : list (list Z) := map (fun i => Radd (nth i a []) (nth i b [])) (seq 0 k).

  (** Algorithm 13, K-PKE.KeyGen(d) with A the matrix of rho *)
  Definition KPKE_rho (d : list Z) : list Z := firstn 32 (Gh (d ++ [Z.of_nat k])).
  Definition KPKE_sigma (d : list Z) : list Z := skipn 32 (Gh (d ++ [Z.of_nat k])).
  Definition KPKE_KeyGen (A : list (list (list Z))) (d : list Z) : list Z * list Z :=
    let s := map NTT (noise eta1 (KPKE_sigma d) 0) in
    let e := map NTT (noise eta1 (KPKE_sigma d) k) in
    let t := vadd (map (fun row => dotNTT row s) A) e in
    (flat_map (ByteEncode 12) t ++ KPKE_rho d, flat_map (ByteEncode 12) s).

  (** pieces of n bytes *)
  Definition piece (n i : nat) (B : list Z) : list Z := firstn n (skipn (n * i) B).
  Definition vdecode (d : nat) (B : list Z) : list (list Z) :=
    map (fun i => ByteDecode d (piece (32 * d) i B)) (seq 0 k).

  (** Algorithm 14, K-PKE.Encrypt(ek, m, r) with A the matrix of the seed in ek *)
  Definition ek_rho (ek : list Z) : list Z := skipn (384 * k) ek.
  Definition KPKE_Encrypt (A : list (list (list Z))) (ek m r : list Z) : list Z :=
    let t := map (M q) (vdecode 12 ek) in
    let y := map NTT (noise eta1 r 0) in
    let e1 := noise 2 r k in
    let e2 := SamplePolyCBD 2 (PRF 2 r (2 * k)) in
    let u := vadd (map (fun row => NTTinv (dotNTT row y)) (transpose A)) e1 in
    let mu := map (Decompress 1) (ByteDecode 1 m) in
    let v := Radd (Radd (NTTinv (dotNTT t y)) e2) mu in
    flat_map (fun p => ByteEncode du (map (Compress (Z.of_nat du)) p)) u
      ++ ByteEncode dv (map (Compress (Z.of_nat dv)) v).

  (** Algorithm 15, K-PKE.Decrypt(dk, c) *)
  Definition KPKE_Decrypt (dk c : list Z) : list Z :=
    let u' := map (fun p => map (Decompress (Z.of_nat du)) p) (vdecode du c) in
    let v' := map (Decompress (Z.of_nat dv)) (ByteDecode dv (skipn (32 * du * k) c)) in
    let s := map (M q) (vdecode 12 dk) in
    let w := Rsub v' (NTTinv (dotNTT s (map NTT u'))) in
    ByteEncode 1 (map (Compress 1) w).

  (** the error of a decryption: what is added to Decompress_1(m) when the ciphertext of (m, r) under
      the key of d is decrypted. s, e: the secret and error of the key; y, e1, e2: the randomness of the
      encryption; cu, cv: the rounding of the compression. Products in Z_q[X]/(X^256+1). *)
  Fixpoint Rdot (a b : list (list Z)) : list Z :=
    match a, b with
    | x :: a', y :: b' => Radd (Rmul x y) (Rdot a' b')
    | _, _ => Rzero
    end.
  Definition rounding (d : nat) (f : list Z) : list Z :=
    Rsub (map (fun x => Decompress (Z.of_nat d) (Compress (Z.of_nat d) x)) f) f.
  Definition KPKE_noise (A : list (list (list Z))) (d m r : list Z) : list Z :=
    let s := noise eta1 (KPKE_sigma d) 0 in
    let e := noise eta1 (KPKE_sigma d) k in
    let y := noise eta1 r 0 in
    let e1 := noise 2 r k in
    let e2 := SamplePolyCBD 2 (PRF 2 r (2 * k)) in
    let t := vadd (map (fun row => dotNTT row (map NTT s)) A) (map NTT e) in
    let u := vadd (map (fun row => NTTinv (dotNTT row (map NTT y))) (transpose A)) e1 in
    let v := Radd (Radd (NTTinv (dotNTT t (map NTT y))) e2) (map (Decompress 1) (ByteDecode 1 m)) in
    Rsub (Radd (Radd (Rdot e y) e2) (rounding dv v)) (Rdot s (vadd e1 (map (rounding du) u))).

  (** ** ML-KEM, Section 6 *)
  (** Algorithm 16 *)
  Definition KEM_KeyGen (A : list (list (list Z))) (d z : list Z) : list Z * list Z :=
    let (ek, dkp) := KPKE_KeyGen A d in (ek, dkp ++ ek ++ Hh ek ++ z).
  (** Algorithm 17: shared key and ciphertext *)
  Definition KEM_Encaps (A : list (list (list Z))) (ek m : list Z) : list Z * list Z :=
    let Kr := Gh (m ++ Hh ek) in (firstn 32 Kr, KPKE_Encrypt A ek m (skipn 32 Kr)).
  (** Algorithm 18 *)
  Definition KEM_Decaps (A : list (list (list Z))) (dk c : list Z) : list Z :=
    let dkp := firstn (384 * k) dk in
    let ek := slice dk (384 * k) (384 * k + 32) in
    let h := slice dk (768 * k + 32) 32 in
    let z := slice dk (768 * k + 64) 32 in
    let m := KPKE_Decrypt dkp c in
    let Kr := Gh (m ++ h) in
    let c' := KPKE_Encrypt A ek m (skipn 32 Kr) in
    if list_eq_dec Z.eq_dec c c' then firstn 32 Kr else Jh (z ++ c).
End KPKE.
