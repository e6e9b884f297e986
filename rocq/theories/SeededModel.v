(** drng/src/seeded_rng.c (user space branch of the #ifdef) over an abstract inner DRNG. One call is one
    step: the mutex is held or the process is single threaded. The operating system is the environment:
    clock readings, process id, noise source results. Not modelled: lc_seeded_rng_zero_state (library
    destructor), the pinning of memory, and the wiping of the stack buffer [seed]. *)
From Verif Require Import Bytes Words.

Definition EFAULT : Z := -14.
Definition MAX_BYTES : Z := 2 ^ 20.
Definition MAX_TIME : Z := 60.
(** "Seeded RNG" *)
Definition srng_pers : list Z := [83;101;101;100;101;100;32;82;78;71].

(** What the environment answers during one call. Times are results of time(NULL), -1 on failure; entropy
    results are return value and data of get_full_entropy. *)
Record senv := mkE {
  e_pid : Z;
  e_noise : Z;                       (* seeded_rng_noise_init *)
  e_check : Z;                       (* time in lc_seeded_rng_must_reseed *)
  e_ent1 : Z * list Z; e_ent2 : Z * list Z;  (* entropy of the automatic seeding (second one: initial only) *)
  e_time1 : Z;                       (* time after the automatic seeding *)
  e_ent3 : Z * list Z; e_time3 : Z   (* entropy and time of the seeding forced by lc_seeded_rng_seed *)
}.

(** Trace of what happens to the inner DRNG. *)
Inductive sev :=
| EInit                                   (* re-initialised: zero state *)
| ESeed (pid time : Z)                    (* a complete seeding succeeded *)
| EGen (pid time : Z) (n : nat).          (* output delivered to the caller; time as checked *)

(** [seeded_rng.c: 140-147] *)
Definition get_time (t : Z) : Z := if t =? -1 then 0 else t64 t.
(** [seeded_rng.c: 131-138] *)
Definition time_after (curr base : Z) : bool :=
  if curr =? 2 ^ 64 - 1 then false
  else if base =? 2 ^ 64 - 1 then true
  else base <? curr.
(** [seeded_rng.c: 218-223], as a truth value *)
Definition time_after_now (t base : Z) : bool :=
  let curr := get_time t in
  let r := if time_after curr base then t64 (curr - base) else 0 in negb (r =? 0).

Section Seeded.
  Variable D : Type.
  Variable d_init : D.                                   (* LC_SEEDED_RNG_CTX: zeroised context *)
  Variable d_seed : D -> list Z -> list Z -> Z * D.      (* lc_rng_seed *)
  Variable d_gen : D -> list Z -> nat -> Z * list Z * D. (* lc_rng_generate *)

  Record srng := mkS { s_d : D; s_bytes : Z; s_last : Z; s_pid : Z }.
  (** [seeded_rng.c: 112-120] *)
  Definition srng0 (d : D) : srng := mkS d (MAX_BYTES + 1) 0 0.

  (** the checks of [seeded_rng.c: 163-166, 174-177] *)
  Definition ent_ok (r : Z * list Z) (want : Z) : bool := (want <=? fst r) && (fst r <=? 64).

  (** [seeded_rng.c: 151-193]; returns code, state and whether seeding completed *)
  Definition seed_seeded (s : srng) (init : bool) (newpid : Z) (e1 e2 : Z * list Z) (t : Z) : Z * srng :=
    if negb (ent_ok e1 32) then (EFAULT, s)
    else
      let '(r1, d) := d_seed (s_d s) (firstn (Z.to_nat (fst e1)) (snd e1)) srng_pers in
      if r1 <? 0 then (r1, mkS d (s_bytes s) (s_last s) (s_pid s))
      else
        let done ret d := (ret, mkS d 0 (get_time t) (if newpid =? 0 then s_pid s else newpid)) in
        if init then
          if negb (ent_ok e2 16) then (EFAULT, mkS d (s_bytes s) (s_last s) (s_pid s))
          else
            let '(r2, d) := d_seed d (firstn (Z.to_nat (fst e2)) (snd e2)) [] in
            if r2 <? 0 then (r2, mkS d (s_bytes s) (s_last s) (s_pid s)) else done r2 d
        else done r1 d.

  (** [seeded_rng.c: 225-251]: must reseed, new pid *)
  Definition must_reseed (s : srng) (e : senv) : bool * Z :=
    if MAX_BYTES <? s_bytes s then (true, 0)
    else if time_after_now (e_check e) (t64 (s_last s + MAX_TIME)) then (true, 0)
    else if negb (s_pid s =? e_pid e) then (true, e_pid e)
    else (false, 0).

  (** [seeded_rng.c: 253-276] *)
  Definition get_seeded (s : srng) (e : senv) : Z * srng * list sev :=
    let '(ret, s, init, ev) :=
      if s_last s =? 0 then
        let s1 := mkS d_init (s_bytes s) (s_last s) (s_pid s) in
        if e_noise e <? 0 then (e_noise e, s1, false, [EInit])
        else (e_noise e, mkS d_init (s_bytes s) (s_last s) (e_pid e), true, [EInit])
      else (0, s, false, []) in
    if ret <? 0 then (ret, s, ev)
    else
      let '(m, newpid) := must_reseed s e in
      if m then
        let '(r, s) := seed_seeded s init newpid (e_ent1 e) (e_ent2 e) (e_time1 e) in
        (r, s, if r <? 0 then ev else ev ++ [ESeed (e_pid e) (get_time (e_time1 e))])
      else (ret, s, ev).

  (** [seeded_rng.c: 279-310] *)
  Definition seeded_generate (s : srng) (e : senv) (addtl : list Z) (n : nat) : Z * list Z * srng * list sev :=
    let '(ret, s, ev) := get_seeded s e in
    if ret <? 0 then (ret, [], s, ev)
    else
      let '(r, o, d) := d_gen (s_d s) addtl n in
      if r <? 0 then (r, o, mkS d (s_bytes s) (s_last s) (s_pid s), ev)
      else
        let upd := t64 (s_bytes s + Z.of_nat n) in
        (r, o, mkS d (if upd <? s_bytes s then 2 ^ 64 - 1 else upd) (s_last s) (s_pid s),
         ev ++ [EGen (e_pid e) (get_time (e_check e)) n]).

  (** [seeded_rng.c: 312-331] *)
  Definition seeded_seed (s : srng) (e : senv) (seed pers : list Z) : Z * srng * list sev :=
    let '(ret, s, ev) := get_seeded s e in
    if ret <? 0 then (ret, s, ev)
    else
      let '(r, s) := seed_seeded s false 0 (e_ent3 e) (0, []) (e_time3 e) in
      if r <? 0 then (r, s, ev)
      else
        let ev := ev ++ [ESeed (e_pid e) (get_time (e_time3 e))] in
        let '(r, d) := d_seed (s_d s) seed pers in
        (r, mkS d (s_bytes s) (s_last s) (s_pid s), ev).

  Inductive scall := CGen (addtl : list Z) (n : nat) | CSeed (seed pers : list Z).
  Definition srng_step (s : srng) (e : senv) (c : scall) : Z * list Z * srng * list sev :=
    match c with
    | CGen a n => seeded_generate s e a n
    | CSeed x p => let '(r, s, ev) := seeded_seed s e x p in (r, [], s, ev)
    end.
  Fixpoint srng_run (s : srng) (l : list (senv * scall)) : list (Z * list Z) * srng * list sev :=
    match l with
    | [] => ([], s, [])
    | (e, c) :: l' =>
        let '(r, o, s, ev) := srng_step s e c in
        let '(os, s, evs) := srng_run s l' in ((r, o) :: os, s, ev ++ evs)
    end.
End Seeded.
Arguments srng0 {D}. Arguments srng_run {D}. Arguments srng_step {D}. Arguments s_bytes {D}. Arguments s_last {D}.
Arguments s_pid {D}. Arguments s_d {D}. Arguments get_seeded {D}. Arguments must_reseed {D}. Arguments seed_seeded {D}.
Arguments seeded_generate {D}. Arguments seeded_seed {D}. Arguments mkS {D}.
