(** SP 800-90A Rev. 1: Hash_DRBG (10.1.1) and HMAC_DRBG (10.1.2), on byte strings. Nothing here refers to
    the model. *)
From Verif Require Import Bytes MacSpec.

Definition ceil_div (a b : nat) : nat := ((a + b - 1) / b)%nat.

(** The requests a consumer issues (9.1 - 9.3). The nonce of 9.1 is part of the entropy input. *)
Inductive drbg_req :=
| RSeed (entropy pers : list Z)
| RGen (addtl : list Z) (n : nat).

(** Table 2: limits; max_personalization_string_length and max_additional_input_length 2^31 bytes are below
    the 2^35 bits of the table; at most 2^19 bits per request; at most 2^48 requests between reseeds. *)
Definition max_addtl : Z := 2 ^ 31.
Definition max_request : Z := 2 ^ 16.
Definition reseed_interval : Z := 2 ^ 48.

Section HashDRBG.
  Variable H : list Z -> list Z.
  Variables outlen seedlen : nat.            (* in bytes *)

  (** 10.3.1 *)
  Definition Hash_df (x : list Z) (n : nat) : list Z :=
    firstn n (flat_map (fun i => H (be_bytes 1 (Z.of_nat i) ++ be_bytes 4 (8 * Z.of_nat n) ++ x))
                (seq 1 (ceil_div n outlen))).

  Record hd_state := mkHDS { S_V : list Z; S_C : list Z; S_ctr : Z }.

  (** addition modulo 2^seedlen *)
  Definition add_seed (V : list Z) (x : Z) : list Z :=
    be_bytes seedlen ((be_val V + x) mod 256 ^ Z.of_nat seedlen).

  (** 10.1.1.2, 10.1.1.3 *)
  Definition HD_instantiate (entropy pers : list Z) : hd_state :=
    let V := Hash_df (entropy ++ pers) seedlen in mkHDS V (Hash_df ([0] ++ V) seedlen) 1.
  Definition HD_reseed (s : hd_state) (entropy addtl : list Z) : hd_state :=
    let V := Hash_df ([1] ++ S_V s ++ entropy ++ addtl) seedlen in mkHDS V (Hash_df ([0] ++ V) seedlen) 1.

  (** 10.1.1.4 *)
  Definition Hashgen (V : list Z) (n : nat) : list Z :=
    firstn n (flat_map (fun i => H (add_seed V (Z.of_nat i))) (seq 0 (ceil_div n outlen))).
  Definition HD_generate (s : hd_state) (addtl : list Z) (n : nat) : list Z * hd_state :=
    let V := match addtl with
             | [] => S_V s
             | _ => add_seed (S_V s) (be_val (H ([2] ++ S_V s ++ addtl)))
             end in
    (Hashgen V n,
     mkHDS (add_seed V (be_val (H ([3] ++ V)) + be_val (S_C s) + S_ctr s)) (S_C s) (S_ctr s + 1)).

  (** 9.1 - 9.3: the state is None before instantiation. *)
  Definition HD_step (s : option hd_state) (r : drbg_req) : Z * list Z * option hd_state :=
    match r with
    | RSeed e p =>
        if (max_addtl <? Z.of_nat (length p)) || (length e =? 0)%nat then (EINVAL, [], s)
        else (0, [], Some (match s with None => HD_instantiate e p | Some s => HD_reseed s e p end))
    | RGen a n =>
        match s with
        | None => (EINVAL, [], None)
        | Some s' =>
            if (max_request <? Z.of_nat n) || (max_addtl <? Z.of_nat (length a)) || (reseed_interval <? S_ctr s')
            then (EINVAL, [], s)
            else let '(o, s'') := HD_generate s' a n in (0, o, Some s'')
        end
    end.
End HashDRBG.

Section HmacDRBG.
  Variable H : list Z -> list Z.
  Variables bs outlen : nat.
  Let MAC := HMAC H bs.

  Record hmd_state := mkHMS { S_K : list Z; S_V' : list Z; S_ctr' : Z }.

  (** 10.1.2.2 *)
  Definition HMD_update (pd : list Z) (K V : list Z) : list Z * list Z :=
    let K := MAC K (V ++ [0] ++ pd) in
    let V := MAC K V in
    match pd with
    | [] => (K, V)
    | _ => let K := MAC K (V ++ [1] ++ pd) in (K, MAC K V)
    end.

  Definition HMD_instantiate (entropy pers : list Z) : hmd_state :=
    let '(K, V) := HMD_update (entropy ++ pers) (zeros outlen) (repeat 1 outlen) in mkHMS K V 1.
  Definition HMD_reseed (s : hmd_state) (entropy addtl : list Z) : hmd_state :=
    let '(K, V) := HMD_update (entropy ++ addtl) (S_K s) (S_V' s) in mkHMS K V 1.

  (** 10.1.2.5; [Vi i] is V after i iterations of step 4. *)
  Definition Vi (K V : list Z) (i : nat) : list Z := Nat.iter i (MAC K) V.
  Definition HMD_generate (s : hmd_state) (addtl : list Z) (n : nat) : list Z * hmd_state :=
    let '(K, V) := match addtl with [] => (S_K s, S_V' s) | _ => HMD_update addtl (S_K s) (S_V' s) end in
    let m := ceil_div n outlen in
    let out := firstn n (flat_map (Vi K V) (seq 1 m)) in
    let '(K', V') := HMD_update addtl K (Vi K V m) in
    (out, mkHMS K' V' (S_ctr' s + 1)).

  Definition HMD_step (s : option hmd_state) (r : drbg_req) : Z * list Z * option hmd_state :=
    match r with
    | RSeed e p =>
        if (max_addtl <? Z.of_nat (length p)) || (length e =? 0)%nat then (EINVAL, [], s)
        else (0, [], Some (match s with None => HMD_instantiate e p | Some s => HMD_reseed s e p end))
    | RGen a n =>
        match s with
        | None => (EINVAL, [], None)
        | Some s' =>
            if (max_request <? Z.of_nat n) || (max_addtl <? Z.of_nat (length a)) || (reseed_interval <? S_ctr' s')
            then (EINVAL, [], s)
            else let '(o, s'') := HMD_generate s' a n in (0, o, Some s'')
        end
    end.
End HmacDRBG.

(** Results of a sequence of requests: return code and output of each. *)
Fixpoint run_reqs {S : Type} (step : S -> drbg_req -> Z * list Z * S) (s : S) (rs : list drbg_req) :
    list (Z * list Z) * S :=
  match rs with
  | [] => ([], s)
  | r :: rs' =>
      let '(rc, o, s1) := step s r in
      let '(l, s2) := run_reqs step s1 rs' in ((rc, o) :: l, s2)
  end.
