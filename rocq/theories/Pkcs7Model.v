(** * PKCS#7 verification and the trust store

    Model of asn1/src/pkcs7_verify.c and asn1/src/pkcs7_trust.c (the parts
    compiled: lines 32-110, 258-330).  Certificates live in a heap
    [H : nat -> cert]; a certificate pointer is a number.  The fields written
    during verification are in [vstate].  A list linked by the field next is
    given as the list of its members in order, except in the trust-store part
    at the end, where the links themselves are modelled. *)
From Coq Require Import ZArith List Lia Bool.
Import ListNotations.
From Verif Require Import Bytes X509Model.
Open Scope Z_scope.

(** seen, signer and blacklisted of every certificate, blacklisted of the
    signer info *)
Record vstate := { v_seen : nat -> bool; v_signer : nat -> option nat; v_black : nat -> bool; v_sblack : bool }.
Definition fset {A} (f : nat -> A) (i : nat) (v : A) : nat -> A := fun j => if (j =? i)%nat then v else f j.
Definition set_seen (s : vstate) (f : nat -> bool) : vstate :=
  {| v_seen := f; v_signer := v_signer s; v_black := v_black s; v_sblack := v_sblack s |}.
Definition set_signer (s : vstate) (i : nat) (v : option nat) : vstate :=
  {| v_seen := v_seen s; v_signer := fset (v_signer s) i v; v_black := v_black s; v_sblack := v_sblack s |}.
Definition set_black (s : vstate) (i : nat) : vstate :=
  {| v_seen := v_seen s; v_signer := v_signer s; v_black := fset (v_black s) i true; v_sblack := v_sblack s |}.
Definition set_sblack (s : vstate) : vstate :=
  {| v_seen := v_seen s; v_signer := v_signer s; v_black := v_black s; v_sblack := true |}.

(** struct lc_pkcs7_signed_info [asn1/api/lc_pkcs7_common.h: 37-86] *)
Record sinfo := { si_sig : sigdata; si_has_time : bool; si_time : Z;
                  si_msgdigest : option (list Z); si_authattrs : option (list Z) }.
Definition set_digest (s : sinfo) (d : list Z) : sinfo :=
  {| si_sig := {| s_s := s_s (si_sig s); s_digest := d; s_hash := s_hash (si_sig s); s_algo := s_algo (si_sig s);
                  s_raw := s_raw (si_sig s); s_auth0 := s_auth0 (si_sig s); s_auth1 := s_auth1 (si_sig s) |};
     si_has_time := si_has_time s; si_time := si_time s; si_msgdigest := si_msgdigest s; si_authattrs := si_authattrs s |}.
(** struct lc_verify_rules: required_keyusage, required_eku *)
Definition rules := (Z * Z)%type.

Section Pkcs7.
  Variable alg_verify : Z -> pubkey -> sigdata -> Z.
  Variable sig_check_hash : Z -> Z -> Z.
  (** the digest of a hash algorithm, with the digest size of
      x509_set_digestsize (x509_public_key.c 34-57) *)
  Variable hash : Z -> list Z -> list Z.
  (** lc_get_time, per iteration of the chain loop *)
  Variable clock : nat -> Z * Z.
  Variable H : nat -> cert.

  (** pkcs7_find_asymmetric_key [pkcs7_trust.c: 35-99] with non-NULL auth
      pointers; [inl] = error code, [inr] = the anchor found *)
  Definition find_asymmetric_key (trust : option (list nat)) (auth0 auth1 : kid) : Z + nat :=
    match trust with
    | None => inl ENOKEY
    | Some anchors =>
      if negb (k_len auth0 =? 0) then
        match find (fun p => id_same (c_id (H p)) auth0) anchors with
        | None => inl ENOKEY
        | Some p => if negb (k_len auth1 =? 0) && negb (id_same (c_skid (H p)) auth1) then inl EKEYREJECTED else inr p
        end
      else if negb (k_len auth1 =? 0) then
        match find (fun p => negb (k_len (c_skid (H p)) =? 0) && id_same (c_skid (H p)) auth1) anchors with
        | None => inl ENOKEY
        | Some p => inr p
        end
      else inl ENOKEY
    end.

  (** the search in the chain [pkcs7_verify.c: 238-263]; the flag tells
      whether label found_issuer_check_skid is taken *)
  Definition find_issuer (chain : list nat) (auth0 auth1 : kid) : option (nat * bool) :=
    if negb (k_len auth0 =? 0) then
      match find (fun p => id_same (c_id (H p)) auth0) chain with Some p => Some (p, true) | None => None end
    else if negb (k_len auth1 =? 0) then
      match find (fun p => negb (k_len (c_skid (H p)) =? 0) && id_same (c_skid (H p)) auth1) chain with
      | Some p => Some (p, false)
      | None => None
      end
    else None.

  (** "for (p = sinfo->signer; p != x509; p = p->signer) p->blacklisted = 1"
      [197-199]; [None] = a NULL pointer is followed *)
  Fixpoint mark_black (fuel : nat) (p : option nat) (x : nat) (st : vstate) : option vstate :=
    match p with
    | None => None
    | Some p => if (p =? x)%nat then Some st
                else match fuel with O => None | S f => mark_black f (v_signer st p) x (set_black st p) end
    end.

  Definition err_or (r : Z) (k : Z) : Z := if r <? 0 then r else k.

  (** The loop of pkcs7_verify_sig_chain [180-348]; [i] counts iterations;
      [start] = sinfo->signer when sinfo is not NULL.  [None]: the loop does
      not end within [fuel] iterations or a NULL pointer is followed. *)
  Fixpoint chain_loop (chain : list nat) (trust : option (list nat)) (start : option nat)
           (fuel i : nat) (x : nat) (st : vstate) : option (Z * vstate) :=
    match fuel with
    | O => None
    | S fuel =>
      let st := set_seen st (fset (v_seen st) x true) in
      let c := H x in
      if v_black st x then
        match start with
        | None => Some (EKEYREJECTED, st)
        | Some s0 => match mark_black (S (length chain)) (Some s0) x (set_sblack st) with
                     | None => None
                     | Some st => Some (EKEYREJECTED, st)
                     end
        end
      else
      let auth0 := s_auth0 (c_sig c) in let auth1 := s_auth1 (c_sig c) in
      let r := is_root_ca (Some c) in
      if r <? 0 then Some (r, st)
      else if r =? POL_TRUE then
        if c_unsupported c then Some (ENOPKG, st) else Some (0, set_signer st x (Some x))
      else
      match find_issuer chain auth0 auth1 with
      | None =>
        match find_asymmetric_key trust auth0 auth1 with
        | inr t => Some (err_or (cert_verify alg_verify sig_check_hash (clock i) (c_pub (H t)) c) 0, st)
        | inl _ => Some (EKEYREJECTED, st)
        end
      | Some (p, chk) =>
        if chk && negb (k_len auth1 =? 0) && negb (id_same (c_skid (H p)) auth1) then Some (EKEYREJECTED, st)
        else if v_seen st p then Some (EKEYREJECTED, st)
        else
        let r := match_key_usage (Some (H p)) KU_KEYCERTSIGN in
        if r <? 0 then Some (r, st)
        else if negb (r =? POL_TRUE) then Some (EKEYREJECTED, st)
        else
        let r := is_root_ca (Some (H p)) in
        if r <? 0 then Some (r, st)
        else if r =? POL_TRUE then
          let st := set_signer st p (Some x) in
          match trust with
          | None => Some (0, st)
          | Some _ =>
            match find_asymmetric_key trust (c_id (H p)) (c_skid (H p)) with
            | inl e => Some (e, st)
            | inr t => Some (err_or (cert_verify alg_verify sig_check_hash (clock i) (c_pub (H t)) c) 0, st)
            end
          end
        else
        let r := cert_verify alg_verify sig_check_hash (clock i) (c_pub (H p)) c in
        if r <? 0 then Some (r, st)
        else chain_loop chain trust start fuel (S i) p (set_signer st x (Some p))
      end
    end.

  (** pkcs7_verify_sig_chain [163-352] *)
  Definition verify_sig_chain (chain : list nat) (trust : option (list nat)) (start : option nat)
             (x : nat) (st : vstate) : option (Z * vstate) :=
    let st := set_seen st (fold_left (fun f p => fset f p false) chain (v_seen st)) in
    chain_loop chain trust start (S (length chain)) 0 x st.

  (** pkcs7_find_key [130-157] *)
  Definition find_key (certs : list nat) (s : sinfo) : option nat :=
    find (fun p => id_same (c_id (H p)) (s_auth0 (si_sig s)) || id_same (c_skid (H p)) (s_auth0 (si_sig s))) certs.

  (** pkcs7_digest [42-122]; ASN1_CONS_BIT | ASN1_SET = 49.  The digest
      fields keep their first value when a check of the attributes fails. *)
  Definition pkcs7_digest (data : list Z) (s : sinfo) : Z * sinfo :=
    match s_digest (si_sig s) with
    | _ :: _ => (0, s)
    | [] =>
      match s_hash (si_sig s) with
      | None => (ENOPKG, s)
      | Some h =>
        let d := hash h data in
        let s1 := set_digest s d in
        match si_authattrs s with
        | None => (0, s1)
        | Some aa =>
          match si_msgdigest s with
          | None => (EKEYREJECTED, s1)
          | Some md =>
            if negb (length md =? length d)%nat then (EBADMSG, s1)
            else if negb (cmp_eq d md) then (EKEYREJECTED, s1)
            else (0, set_digest s (hash h (49 :: aa)))
          end
        end
      end
    end.

  (** pkcs7_verify_one [357-421], CKINT_SIGCHECK = CKINT *)
  Definition verify_one (certs : list nat) (data : list Z) (trust : option (list nat)) (rl : option rules)
             (s : sinfo) (st : vstate) : option (Z * sinfo * vstate) :=
    let '(r, s) := pkcs7_digest data s in
    if r <? 0 then Some (r, s, st)
    else match find_key certs s with
    | None => Some (ENOKEY, s, st)
    | Some g =>
      let c := H g in
      if si_has_time s && ((si_time s <? c_from c) || (c_to c <? si_time s)) then Some (EKEYREJECTED, s, st)
      else
      let '(ku, eku) := match rl with Some r => r | None => (0, 0) end in
      let r1 := match rl with Some _ => match_key_usage (Some c) ku | None => POL_TRUE end in
      if r1 <? 0 then Some (r1, s, st)
      else if negb (r1 =? POL_TRUE) then Some (EKEYREJECTED, s, st)
      else
      let r2 := match rl with Some _ => match_eku (Some c) eku | None => POL_TRUE end in
      if r2 <? 0 then Some (r2, s, st)
      else if negb (r2 =? POL_TRUE) then Some (EKEYREJECTED, s, st)
      else
      let r3 := verify_signature alg_verify sig_check_hash (c_pub c) (si_sig s) in
      if r3 <? 0 then Some (r3, s, st)
      else match verify_sig_chain certs trust (Some g) g st with
           | None => None
           | Some (r, st) => Some (r, s, st)
           end
    end.

  (** the loop of lc_pkcs7_verify [481-499] over the signer infos *)
  Fixpoint verify_all (certs : list nat) (data : list Z) (trust : option (list nat)) (rl : option rules)
           (l : list sinfo) (cached : Z) (st : vstate) : option (Z * list sinfo * vstate) :=
    match l with
    | [] => Some (cached, [], st)
    | s :: l =>
      match verify_one certs data trust rl s st with
      | None => None
      | Some (r, s, st) =>
        let go c := match verify_all certs data trust rl l c st with
                    | None => None
                    | Some (r, l, st) => Some (r, s :: l, st)
                    end in
        if r =? ENOKEY then go cached
        else if r =? ENOPKG then go (if cached =? ENOKEY then ENOPKG else cached)
        else if r =? 0 then go 0
        else Some (r, s :: l, st)
      end
    end.
  (** lc_pkcs7_verify [458-503]; [data_ok] = the content type is OID_data *)
  Definition lc_pkcs7_verify (certs : list nat) (data_ok : bool) (data : option (list Z))
             (trust : option (list nat)) (rl : option rules) (l : list sinfo) (st : vstate)
    : option (Z * list sinfo * vstate) :=
    if negb data_ok then Some (EKEYREJECTED, l, st)
    else match data with
         | None => Some (ENODATA, l, st)
         | Some d => verify_all certs d trust rl l ENOKEY st
         end.

  (** ** The trust store as a linked list *)
  Record store := { t_head : option nat; t_next : nat -> option nat }.
  (** the members met when following next from [p]; [None] when the end is
      not reached within [fuel] steps *)
  Fixpoint members (fuel : nat) (next : nat -> option nat) (p : option nat) : option (list nat) :=
    match p with
    | None => Some []
    | Some p => match fuel with
                | O => None
                | S f => match members f next (next p) with Some l => Some (p :: l) | None => None end
                end
    end.
  (** the append loop [pkcs7_trust.c: 301-306]; the compare-and-swap is
      sequential here *)
  Fixpoint append_loop (fuel : nat) (x : nat) (next : nat -> option nat) (a : option nat) : option (nat -> option nat) :=
    match a with
    | None => Some next
    | Some a => match next a with
                | None => Some (fset next a (Some x))
                | Some n => match fuel with O => None | S f => append_loop f x next (Some n) end
                end
    end.
  (** lc_pkcs7_trust_store_add [261-310]; [anchors] are the members of the
      list before the call *)
  Definition trust_store_add (t : store) (anchors : list nat) (x : nat) (st : vstate) : option (Z * store * vstate) :=
    let link st :=
      let next := fset (t_next t) x None in
      match t_head t with
      | None => Some (0, {| t_head := Some x; t_next := next |}, st)
      | Some h => match append_loop (S (length anchors)) x next (Some h) with
                  | None => None
                  | Some next => Some (0, {| t_head := Some h; t_next := next |}, st)
                  end
      end in
    let r := is_root_ca (Some (H x)) in
    if r <? 0 then Some (r, t, st)
    else if r =? POL_TRUE then link st
    else
      let r := is_ca (Some (H x)) in
      if r <? 0 then Some (r, t, st)
      else if negb (r =? POL_TRUE) then Some (EKEYREJECTED, t, st)
      else match verify_sig_chain anchors None None x st with
           | None => None
           | Some (r, st) => if r <? 0 then Some (r, t, st) else link st
           end.
End Pkcs7.
