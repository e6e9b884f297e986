(** * Ed25519 signing and verification (curve25519/src/ed25519.c)

    The scalar arithmetic and the canonicity tests are those of ScModel.v.
    The point functions of ed25519_ref10.c, SHA-512, the random number
    generator and the composite domain separation are arguments: points are
    in whatever representation [p3] the point functions use.  Hash contexts
    are modelled by the string of everything passed to lc_hash_update.
    Left out: the self tests, Timecop marks and the wiping of locals. *)
From Coq Require Import ZArith List.
From Verif Require Import ScModel.
Import ListNotations.
Open Scope Z_scope.
Open Scope bool_scope.

Section Ed.
Variable p3 : Type.
Variable scalarmult_base : list Z -> p3.            (* ge25519_scalarmult_base *)
Variable tobytes : p3 -> list Z.                    (* ge25519_p3_tobytes *)
Variable frombytes : list Z -> option p3.           (* ge25519_frombytes; None: non-zero return *)
Variable frombytes_negate : list Z -> option p3.    (* ge25519_frombytes_negate_vartime *)
Variable has_small_order : p3 -> Z.                 (* ge25519_has_small_order, unsigned *)
Variable double_scalarmult : list Z -> p3 -> list Z -> p3. (* ge25519_double_scalarmult_vartime, ge25519_p2_to_p3 *)
Variable p3_sub : p3 -> p3 -> p3.                   (* ge25519_p3_sub *)
Variable sha512 : list Z -> list Z.

(** lc_ed25519_dom2 [ed25519.c 162-176] *)
Definition label : list Z :=
  [83; 105; 103; 69; 100; 50; 53; 53; 49; 57; 32; 110; 111; 32; 69; 100; 50; 53; 53; 49; 57; 32;
   99; 111; 108; 108; 105; 115; 105; 111; 110; 115; 1; 0].
Definition dom2 (prehash : bool) : list Z := if prehash then label else [].

(** az[0] &= 248; az[31] &= 127; az[31] |= 64 [ed25519.c 88-90, 245-247] *)
Definition clamp (az : list Z) : list Z :=
  Z.land (nth 0 az 0) 248 :: firstn 30 (skipn 1 az) ++ [Z.lor (Z.land (nth 31 az 0) 127) 64] ++ skipn 32 az.

(** lc_ed25519_keypair [ed25519.c 71-111].  [rng] is the result and the output
    of lc_rng_generate; on failure the buffers stay as they were (the
    generator's own writes are not modelled). *)
Definition keypair (pk sk : option (list Z)) (rng : Z * list Z) : Z * option (list Z) * option (list Z) :=
  match sk, pk with
  | Some sk0, Some pk0 =>
      let '(ret, seed) := rng in
      if ret <? 0 then (ret, Some pk0, Some sk0)
      else
        let tmp := clamp (sha512 seed) in
        let p := tobytes (scalarmult_base (firstn 32 tmp)) in
        (ret, Some p, Some (seed ++ p))
  | _, _ => (-22, pk, sk)
  end.

(** lc_ed25519_sign_internal [ed25519.c 178-265].  [rng]: None without rng_ctx,
    else the result of lc_rng_generate and the 32 bytes it gives.  [ds]: None
    unless a composite signature is requested, else the result of
    composite_signature_domain_separation and the bytes it hashes.
    The outer None is an overflow of the scalar arithmetic.  The domain
    separation is asked for twice with the same arguments; the model takes the
    same outcome both times. *)
Definition finish_sign (ret : Z) (prehash : bool) (msg sk az nonce ds : list Z) : option (Z * option (list Z)) :=
  match sc_reduce nonce with
  | None => None
  | Some r =>
      let R := tobytes (scalarmult_base r) in
      let buf := R ++ firstn 32 (skipn 32 sk) in
      match sc_reduce (sha512 (dom2 prehash ++ buf ++ ds ++ msg)) with
      | None => None
      | Some hram =>
          match sc_muladd hram (firstn 32 (clamp az)) r with
          | None => None
          | Some s => Some (ret, Some (R ++ s))
          end
      end
  end.

Definition sign (sig : option (list Z)) (prehash : bool) (msg : list Z) (sk : option (list Z))
    (rng : option (Z * list Z)) (ds : option (Z * list Z)) : option (Z * option (list Z)) :=
  match sig, sk with
  | Some _, Some sk =>
      let az := sha512 (firstn 32 sk) in
      let '(ret, noise) := match rng with
                           | Some (ret, out) => (ret, az ++ out ++ repeat 0 32)
                           | None => (0, firstn 32 (skipn 32 az))
                           end in
      if ret <? 0 then Some (ret, sig)
      else
        let '(ret, d) := match ds with Some x => x | None => (ret, []) end in
        if ret <? 0 then Some (ret, sig)
        else finish_sign ret prehash msg sk az (sha512 (dom2 prehash ++ noise ++ d ++ msg)) d
  | _, _ => Some (-22, sig)
  end.

(** lc_ed25519_verify_internal [ed25519.c 341-428] *)
Definition verify (sig : option (list Z)) (prehash : bool) (msg : list Z) (pk : option (list Z))
    (ds : option (Z * list Z)) : option Z :=
  match sig, pk with
  | Some sig, Some pk =>
      let R := firstn 32 sig in
      let s := firstn 32 (skipn 32 sig) in
      if negb (Z.land (nth 63 sig 0) 240 =? 0) && (sc_is_canonical s =? 0) then Some (-22)
      else if ge_is_canonical pk =? 0 then Some (-22)
      else
        match frombytes_negate pk with
        | None => Some (-22)
        | Some A =>
            if negb (has_small_order A =? 0) then Some (-22)
            else
              match frombytes R with
              | None => Some (-22)
              | Some Rp =>
                  if negb (has_small_order Rp =? 0) then Some (-22)
                  else
                    let '(ret, d) := match ds with Some x => x | None => (0, []) end in
                    if ret <? 0 then Some ret
                    else
                      match sc_reduce (sha512 (dom2 prehash ++ R ++ pk ++ d ++ msg)) with
                      | None => None
                      | Some h =>
                          let sb_ah := double_scalarmult h A s in
                          let check := p3_sub Rp sb_ah in
                          if (has_small_order check - 1) mod 4294967296 =? 0 then Some ret else Some (-74)
                      end
              end
        end
  | _, _ => Some (-22)
  end.
End Ed.
