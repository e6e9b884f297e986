(** ML-DSA as FIPS 204 defines it, written down without reference to the C code.
    Polynomials are lists of 256 integers, the standard's bit strings lists of bytes. *)
From Verif Require Import Bytes Fips202 PolyRing.
From Verif Require KyberSpec.

Definition dq : Z := 8380417.
Definition dzeta_root : Z := 1753.

(** Z_q^256 *)
Definition dRq (f : list Z) : Prop := length f = 256%nat /\ Forall (fun x => 0 <= x < dq) f.

(** ** the ring Z_q[X]/(X^256 + 1) *)
Definition dRmul (a b : list Z) : list Z := M dq (conv (-1) 256 a b).
Definition dRadd (a b : list Z) : list Z := M dq (padd a b).
Definition dRsub (a b : list Z) : list Z := M dq (psub a b).
Definition dRzero : list Z := zeros 256.

(** ** NTT, Sections 2.5 and 7.5: the values of the polynomial at zeta^(2 BitRev8(i) + 1) *)
Fixpoint powd (b : Z) (e : nat) : Z := match e with O => 1 | S e' => (b * powd b e') mod dq end.
Fixpoint bitrevd (n : nat) (i : Z) : Z :=
  match n with O => 0 | S n' => (i mod 2) * 2 ^ Z.of_nat n' + bitrevd n' (i / 2) end.
Definition BitRev8 (i : nat) : Z := bitrevd 8 (Z.of_nat i).
Definition dgam (i : nat) : Z := powd dzeta_root (Z.to_nat (2 * BitRev8 i + 1)).
Definition dNTT (f : list Z) : list Z :=
  map (fun i => zsum 256 (fun j => nth j f 0 * powd (dgam i) j) mod dq) (seq 0 256).
(** the inverse; 8347681 = 256^-1, zeta^512 = 1 so that x^-1 = x^511 *)
Definition dNTTinv (g : list Z) : list Z :=
  map (fun j => (8347681 * zsum 256 (fun i => nth i g 0 * powd (powd (dgam i) 511) j)) mod dq) (seq 0 256).
(** Algorithm 45 *)
Definition dMul (f g : list Z) : list Z := map (fun i => (nth i f 0 * nth i g 0) mod dq) (seq 0 256).
(** a row of Algorithm 48 *)
Fixpoint ddot (a b : list (list Z)) : list Z :=
  match a, b with
  | x :: a', y :: b' => dRadd (dMul x y) (ddot a' b')
  | _, _ => dRzero
  end.
Definition dmatvec (A : list (list (list Z))) (v : list (list Z)) : list (list Z) := map (fun row => ddot row v) A.
Fixpoint dvec2 (op : list Z -> list Z -> list Z) (a b : list (list Z)) : list (list Z) :=
  match a, b with x :: a', y :: b' => op x y :: dvec2 op a' b' | _, _ => [] end.

(** ** Section 2.3: the representative r = m mod+- alpha with -alpha/2 < r <= alpha/2, and the norm *)
Definition mods (m alpha : Z) : Z := let r := m mod alpha in if alpha / 2 <? r then r - alpha else r.
Definition norm_inf (w : Z) : Z := Z.abs (mods w dq).

(** ** Section 7.4 *)
(** Algorithm 35 *)
Definition Power2Round (r : Z) : Z * Z :=
  let rp := r mod dq in let r0 := mods rp (2 ^ 13) in ((rp - r0) / 2 ^ 13, r0).
(** Algorithms 36 to 40 *)
Definition Decompose (g2 r : Z) : Z * Z :=
  let rp := r mod dq in
  let r0 := mods rp (2 * g2) in
  if rp - r0 =? dq - 1 then (0, r0 - 1) else ((rp - r0) / (2 * g2), r0).
Definition HighBits (g2 r : Z) : Z := fst (Decompose g2 r).
Definition LowBits (g2 r : Z) : Z := snd (Decompose g2 r).
Definition MakeHint (g2 z r : Z) : Z := if HighBits g2 r =? HighBits g2 (r + z) then 0 else 1.
Definition UseHint (g2 h r : Z) : Z :=
  let m := (dq - 1) / (2 * g2) in
  let (r1, r0) := Decompose g2 r in
  if (h =? 1) && (0 <? r0) then (r1 + 1) mod m
  else if (h =? 1) && (r0 <=? 0) then (r1 - 1) mod m
  else r1.

(** ** Section 7.1; SimpleBitPack of n-bit numbers and its inverse are ByteEncode and ByteDecode of FIPS 203 *)
Definition SimpleBitPack (n : nat) (w : list Z) : list Z := KyberSpec.ByteEncode n w.
Definition SimpleBitUnpack (n : nat) (v : list Z) : list Z := KyberSpec.ByteDecode n v.
(** Algorithm 17: b minus the coefficient in n = bitlen(a + b) bits; Algorithm 19 *)
Definition BitPack (n : nat) (b : Z) (w : list Z) : list Z := KyberSpec.ByteEncode n (map (fun c => b - c) w).
Definition BitUnpack (n : nat) (b : Z) (v : list Z) : list Z := map (fun x => b - x) (KyberSpec.ByteDecode n v).
(** Algorithm 20: the positions of the nonzero coefficients of each polynomial in turn, zeros up to
    omega bytes, then for each polynomial the number of positions written so far *)
Definition ones_at (p : list Z) : list Z :=
  map Z.of_nat (filter (fun j => negb (nth j p 0 =? 0)) (seq 0 256)).
Definition positions (h : list (list Z)) : list Z := flat_map ones_at h.
Definition HintBitPack (omega : nat) (h : list (list Z)) : list Z :=
  positions h ++ zeros (omega - length (positions h))
    ++ map (fun i => Z.of_nat (length (positions (firstn (S i) h)))) (seq 0 (length h)).
(** hint vectors the standard packs: k polynomials with coefficients 0 and 1, at most omega ones *)
Definition hint_vector (k omega : nat) (h : list (list Z)) : Prop :=
  length h = k /\ Forall (fun p => length p = 256%nat /\ Forall (fun c => c = 0 \/ c = 1) p) h /\
  (length (positions h) <= omega)%nat.

(** ** Section 7.3 *)
(** Algorithms 14 and 30: the candidates of a byte stream, three bytes each *)
Fixpoint three_bytes (B : list Z) : list Z :=
  match B with
  | b0 :: b1 :: b2 :: B' => (65536 * (b2 mod 128) + 256 * b1 + b0) :: three_bytes B'
  | _ => []
  end.
Definition accept3 (B : list Z) : list Z := filter (fun x => x <? dq) (three_bytes B).
Definition RejNTTPoly (B : list Z) (a : list Z) : Prop :=
  length a = 256%nat /\ exists n, firstn 256 (accept3 (SHAKE128 B (3 * n))) = a.
(** Algorithms 15 and 31: the low half of each byte first *)
Definition CoeffFromHalfByte (eta b : Z) : option Z :=
  if (eta =? 2) && (b <? 15) then Some (2 - b mod 5)
  else if (eta =? 4) && (b <? 9) then Some (4 - b) else None.
Definition halves (B : list Z) : list Z := flat_map (fun z => [z mod 16; z / 16]) B.
Fixpoint somes (l : list (option Z)) : list Z :=
  match l with [] => [] | Some x :: l' => x :: somes l' | None :: l' => somes l' end.
Definition accept_eta (eta : Z) (B : list Z) : list Z := somes (map (CoeffFromHalfByte eta) (halves B)).
Definition RejBoundedPoly (eta : Z) (B : list Z) (a : list Z) : Prop :=
  length a = 256%nat /\ exists n, firstn 256 (accept_eta eta (SHAKE256 B n)) = a.
(** Algorithm 29, from the stream after its first eight bytes: round i takes the next byte that is at most i *)
Fixpoint put (c : list Z) (i : nat) (x : Z) : list Z :=
  match c, i with
  | _ :: c', O => x :: c'
  | y :: c', S i' => y :: put c' i' x
  | [], _ => []
  end.
Fixpoint ball (sign : nat -> bool) (tau i : nat) (B : list Z) (c : list Z) : option (list Z) :=
  if (i =? 256)%nat then Some c
  else match B with
       | [] => None
       | b :: B' =>
         if Z.of_nat i <? b then ball sign tau i B' c
         else let j := Z.to_nat b in
              ball sign tau (S i) B' (put (put c i (nth j c 0)) j (if sign (i + tau - 256)%nat then -1 else 1))
       end.
Definition SampleInBall (tau : nat) (rho : list Z) (c : list Z) : Prop :=
  exists n, let s := SHAKE256 rho (8 + n) in
    ball (fun t => Z.testbit (nth (t / 8) s 0) (Z.of_nat (t mod 8))) tau (256 - tau) (skipn 8 s) (zeros 256) = Some c.

Definition IntegerToBytes2 (x : Z) : list Z := [x mod 256; (x / 256) mod 256].

(** Section 4, Table 1 *)
Record dset := mkSet { f_k : nat; f_l : nat; f_eta : Z; f_tau : nat; f_beta : Z; f_g1 : Z; f_g2 : Z; f_omega : nat; f_lam4 : nat;
                       f_bits_eta : nat; f_bits_z : nat; f_bits_w1 : nat }.
Definition fips_44 : dset := mkSet 4 4 2 39 78 131072 95232 80 32 3 18 6.
Definition fips_65 : dset := mkSet 6 5 4 49 196 524288 261888 55 48 4 20 4.
Definition fips_87 : dset := mkSet 8 7 2 60 120 524288 261888 75 64 3 20 4.

Section Algorithms.
  Variable F : dset.
  (** Algorithm 32: A[r][s] = RejNTTPoly(rho || s || r) *)
  Definition ExpandA (rho : list Z) (A : list (list (list Z))) : Prop :=
    length A = f_k F /\
    forall r, (r < f_k F)%nat -> length (nth r A []) = f_l F /\
    forall s, (s < f_l F)%nat -> RejNTTPoly (rho ++ [Z.of_nat s] ++ [Z.of_nat r]) (nth s (nth r A []) []).
  (** Algorithm 33 *)
  Definition ExpandS (rho : list Z) (s1 s2 : list (list Z)) : Prop :=
    length s1 = f_l F /\ length s2 = f_k F /\
    (forall r, (r < f_l F)%nat -> RejBoundedPoly (f_eta F) (rho ++ IntegerToBytes2 (Z.of_nat r)) (nth r s1 [])) /\
    (forall r, (r < f_k F)%nat -> RejBoundedPoly (f_eta F) (rho ++ IntegerToBytes2 (Z.of_nat (r + f_l F))) (nth r s2 [])).
  (** Algorithm 34 *)
  Definition ExpandMask (rho : list Z) (mu : Z) : list (list Z) :=
    map (fun r => BitUnpack (f_bits_z F) (f_g1 F) (SHAKE256 (rho ++ IntegerToBytes2 (mu + Z.of_nat r)) (32 * f_bits_z F)))
        (seq 0 (f_l F)).
  (** Algorithm 28 *)
  Definition w1Encode (w1 : list (list Z)) : list Z := flat_map (SimpleBitPack (f_bits_w1 F)) w1.
  (** Algorithms 22 and 24 *)
  Definition pkEncode (rho : list Z) (t1 : list (list Z)) : list Z := rho ++ flat_map (SimpleBitPack 10) t1.
  Definition skEncode (rho K tr : list Z) (s1 s2 t0 : list (list Z)) : list Z :=
    rho ++ K ++ tr ++ flat_map (BitPack (f_bits_eta F) (f_eta F)) s1 ++ flat_map (BitPack (f_bits_eta F) (f_eta F)) s2
      ++ flat_map (BitPack 13 4096) t0.
  (** Algorithm 26 *)
  Definition sigEncode (ct : list Z) (z h : list (list Z)) : list Z :=
    ct ++ flat_map (BitPack (f_bits_z F) (f_g1 F)) z ++ HintBitPack (f_omega F) h.

  (** Algorithm 6, ML-DSA.KeyGen_internal(xi) *)
  Definition KeyGen_seed (xi : list Z) : list Z := SHAKE256 (xi ++ [Z.of_nat (f_k F)] ++ [Z.of_nat (f_l F)]) 128.
  Definition KeyGen_internal (xi pk sk : list Z) : Prop :=
    let rho := firstn 32 (KeyGen_seed xi) in
    let rho' := firstn 64 (skipn 32 (KeyGen_seed xi)) in
    let K := skipn 96 (KeyGen_seed xi) in
    exists A s1 s2, ExpandA rho A /\ ExpandS rho' s1 s2 /\
      let t := dvec2 dRadd (map dNTTinv (dmatvec A (map dNTT s1))) s2 in
      let t1 := map (map (fun r => fst (Power2Round r))) t in
      let t0 := map (map (fun r => snd (Power2Round r))) t in
      pk = pkEncode rho t1 /\ sk = skEncode rho K (SHAKE256 pk 64) s1 s2 t0.

  (** Algorithm 7, lines 11 to 31, one round with the mask of kappa. t0, s1, s2: decoded secret key *)
  Definition vnorm_lt (v : list (list Z)) (B : Z) : Prop := Forall (Forall (fun w => norm_inf w < B)) v.
  Definition sign_values (A : list (list (list Z))) (s1 s2 t0 : list (list Z)) (c : list Z) (y : list (list Z)) :=
    let w := map dNTTinv (dmatvec A (map dNTT y)) in
    let cs1 := map (fun s => dNTTinv (dMul (dNTT c) (dNTT s))) s1 in
    let cs2 := map (fun s => dNTTinv (dMul (dNTT c) (dNTT s))) s2 in
    let ct0 := map (fun s => dNTTinv (dMul (dNTT c) (dNTT s))) t0 in
    let z := dvec2 dRadd y cs1 in
    let r0 := map (map (LowBits (f_g2 F))) (dvec2 dRsub w cs2) in
    let h := dvec2 (fun a b => map (fun i => MakeHint (f_g2 F) (- nth i a 0) (nth i b 0)) (seq 0 256)) ct0
               (dvec2 dRadd (dvec2 dRsub w cs2) ct0) in
    (z, r0, ct0, h).
  Definition commitment (A : list (list (list Z))) (mu : list Z) (y : list (list Z)) : list Z :=
    SHAKE256 (mu ++ w1Encode (map (map (HighBits (f_g2 F))) (map dNTTinv (dmatvec A (map dNTT y))))) (f_lam4 F).
  Definition round_ok (v : list (list Z) * list (list Z) * list (list Z) * list (list Z)) : Prop :=
    let '(z, r0, ct0, h) := v in
    vnorm_lt z (f_g1 F - f_beta F) /\ vnorm_lt r0 (f_g2 F - f_beta F) /\ vnorm_lt ct0 (f_g2 F) /\
    (length (positions h) <= f_omega F)%nat.
  (** Algorithm 7, ML-DSA.Sign_internal: the signature of the first round that is not rejected *)
  Definition Sign_internal (rho K tr : list Z) (s1 s2 t0 : list (list Z)) (M' rnd sg : list Z) : Prop :=
    let mu := SHAKE256 (tr ++ M') 64 in
    let rho'' := SHAKE256 (K ++ rnd ++ mu) 64 in
    exists A n (cs : nat -> list Z), ExpandA rho A /\
      let y i := ExpandMask rho'' (Z.of_nat (i * f_l F)) in
      (forall i, (i <= n)%nat -> SampleInBall (f_tau F) (commitment A mu (y i)) (cs i)) /\
      (forall i, (i < n)%nat -> ~ round_ok (sign_values A s1 s2 t0 (cs i) (y i))) /\
      round_ok (sign_values A s1 s2 t0 (cs n) (y n)) /\
      let '(z, _, _, h) := sign_values A s1 s2 t0 (cs n) (y n) in
      sg = sigEncode (commitment A mu (y n)) (map (map (fun w => mods w dq)) z) h.

  (** Algorithm 8, ML-DSA.Verify_internal, for a signature that decodes to (ct, z, h) *)
  Definition Verify_values (A : list (list (list Z))) (t1 : list (list Z)) (c : list Z) (z h : list (list Z)) : list (list Z) :=
    let w := map dNTTinv (dvec2 dRsub (dmatvec A (map dNTT z))
               (map (fun t => dMul (dNTT c) (dNTT (map (fun x => x * 2 ^ 13) t))) t1)) in
    dvec2 (fun hh r => map (fun i => UseHint (f_g2 F) (nth i hh 0) (nth i r 0)) (seq 0 256)) h w.
  Definition Verify_internal (rho : list Z) (t1 : list (list Z)) (pk M' : list Z) (ct : list Z) (z h : list (list Z)) : Prop :=
    let mu := SHAKE256 (SHAKE256 pk 64 ++ M') 64 in
    exists A c, ExpandA rho A /\ SampleInBall (f_tau F) ct c /\
      vnorm_lt z (f_g1 F - f_beta F) /\
      ct = SHAKE256 (mu ++ w1Encode (Verify_values A t1 c z h)) (f_lam4 F).
End Algorithms.
