(** XDRBG (Kelsey, Lucks, Müller: "XDRBG: A Proposed Deterministic Random Bit Generator Based on Any XOF",
    Algorithm 2 and appendix B.2) and the cSHAKE / KMAC DRNGs derived from it. Nothing here refers to the
    model. *)
From Verif Require Import Bytes KmacSpec DrbgSpec.

(** ENCODE(S, alpha, n) = S || alpha || (85 n + |alpha|) for |alpha| <= 84, n in 0..2 *)
Definition ENCODE (S alpha : list Z) (n : Z) : list Z := S ++ alpha ++ [85 * n + Z.of_nat (length alpha)].

(** A request of n bytes is served in pieces of c bytes and the rest. *)
Definition chunk_sizes (c n : nat) : list nat :=
  repeat c (n / c) ++ (if (n mod c =? 0)%nat then [] else [(n mod c)%nat]).

Section Generic.
  (** [SEED key seed alpha n]: the k bytes that become the state; [key] is None at instantiation.
      [GEN key alpha n]: the stream of which the first k bytes become the state. *)
  Variable SEED : option (list Z) -> list Z -> list Z -> list Z.
  Variable GEN : list Z -> list Z -> nat -> list Z.
  Variables k chunk : nat.

  Fixpoint gen_chunks (key alpha : list Z) (ls : list nat) : list Z * list Z :=
    match ls with
    | [] => ([], key)
    | l :: ls' =>
        let T := GEN key alpha (k + l) in
        let '(o, key') := gen_chunks (firstn k T) alpha ls' in (skipn k T ++ o, key')
    end.

  Definition XD_step (s : option (list Z)) (r : drbg_req) : Z * list Z * option (list Z) :=
    match r with
    | RSeed e p => (0, [], Some (SEED s e p))
    | RGen a n =>
        match s with
        | None => (EINVAL, [], None)
        | Some key => let '(o, key') := gen_chunks key a (chunk_sizes chunk n) in (0, o, Some key')
        end
    end.
End Generic.

(** XDRBG over a XOF: INSTANTIATE, RESEED, GENERATE. *)
Definition XD_SEED (XOF : list Z -> nat -> list Z) (k : nat) (key : option (list Z)) (seed alpha : list Z) : list Z :=
  match key with
  | None => XOF (ENCODE seed alpha 0) k
  | Some V => XOF (ENCODE (V ++ seed) alpha 1) k
  end.
Definition XD_GEN (XOF : list Z -> nat -> list Z) (V alpha : list Z) (n : nat) : list Z := XOF (ENCODE V alpha 2) n.

(** The cSHAKE256 DRNG: the state is the customisation string. "cSHAKE-DRNG seed" / "cSHAKE-DRNG generate" *)
Definition str_cs_seed : list Z := [99;83;72;65;75;69;45;68;82;78;71;32;115;101;101;100].
Definition str_cs_gen : list Z := [99;83;72;65;75;69;45;68;82;78;71;32;103;101;110;101;114;97;116;101].
Definition CS_SEED (key : option (list Z)) (seed alpha : list Z) : list Z :=
  match key with
  | None => cSHAKE 64 (ENCODE seed alpha 0) 0 64 str_cs_seed []
  | Some K => cSHAKE 64 (ENCODE seed alpha 1) 0 64 str_cs_seed K
  end.
Definition CS_GEN (K alpha : list Z) (n : nat) : list Z := cSHAKE 64 (ENCODE [] alpha 2) 0 n str_cs_gen K.

(** The KMAC256 DRNG: the state is the key. "KMAC-DRNG seed" / "KMAC-DRNG generate" *)
Definition str_km_seed : list Z := [75;77;65;67;45;68;82;78;71;32;115;101;101;100].
Definition str_km_gen : list Z := [75;77;65;67;45;68;82;78;71;32;103;101;110;101;114;97;116;101].
Definition KM_SEED (key : option (list Z)) (seed alpha : list Z) : list Z :=
  match key with
  | None => KMACXOF 64 [] (ENCODE seed alpha 0) 0 64 str_km_seed
  | Some K => KMACXOF 64 K (ENCODE seed alpha 1) 0 64 str_km_seed
  end.
Definition KM_GEN (K alpha : list Z) (n : nat) : list Z := KMACXOF 64 K (ENCODE [] alpha 2) 0 n str_km_gen.
