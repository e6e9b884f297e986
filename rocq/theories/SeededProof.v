From Verif Require Import Bytes Words SeededModel.

(** ** The monitor: what the property demands of a trace. [None]: not seeded. Otherwise time and process
    of the last complete seeding and the bytes delivered since. *)
Definition mon := option (Z * Z * Z).
Definition mon_step (m : mon) (v : sev) : mon :=
  match v with
  | EInit => None
  | ESeed p t => Some (t, p, 0)
  | EGen p t n => match m with Some (t0, p0, b) => Some (t0, p0, b + Z.of_nat n) | None => None end
  end.
Definition allowed (m : mon) (v : sev) : Prop :=
  match v with
  | EGen p t n => exists t0 b, m = Some (t0, p, b) /\ t <= t0 + 60 /\ b <= 2 ^ 20
  | _ => True
  end.
Fixpoint all_allowed (m : mon) (l : list sev) : Prop :=
  match l with [] => True | v :: l' => allowed m v /\ all_allowed (mon_step m v) l' end.

(** The clock works and is not at its origin. *)
Definition clock_ok (e : senv) : Prop :=
  1 <= e_check e < 2 ^ 63 /\ 1 <= e_time1 e < 2 ^ 63 /\ 1 <= e_time3 e < 2 ^ 63.
(** A line of descent of processes that does not come back to a process id it left. *)
Fixpoint lineage (l : list Z) : Prop :=
  match l with
  | p :: l' => 0 < p /\ match l' with q :: _ => q = p \/ ~ In p l' | [] => True end /\ lineage l'
  | [] => True
  end.
Definition call_ok (c : scall) : Prop := match c with CGen _ n => Z.of_nat n < 2 ^ 64 | _ => True end.

Lemma all_allowed_app : forall a b m, all_allowed m (a ++ b) <-> all_allowed m a /\ all_allowed (fold_left mon_step a m) b.
Proof. induction a as [|v a IH]; intros b m; cbn; [tauto|]. rewrite IH. tauto. Qed.

Lemma get_time_ok : forall t, 1 <= t < 2 ^ 63 -> get_time t = t.
Proof.
  intros t H. unfold get_time. rewrite (proj2 (Z.eqb_neq t (-1))) by lia. apply t64_id. unfold w64. lia.
Qed.
Lemma time_check : forall t last, 1 <= t < 2 ^ 63 -> 1 <= last < 2 ^ 63 ->
  time_after_now t (t64 (last + MAX_TIME)) = (last + 60 <? t).
Proof.
  intros t last Ht Hl. unfold time_after_now, MAX_TIME. rewrite get_time_ok by auto.
  rewrite (t64_id (last + 60)) by (unfold w64; lia). unfold time_after.
  rewrite (proj2 (Z.eqb_neq t (2 ^ 64 - 1))) by lia. rewrite (proj2 (Z.eqb_neq (last + 60) (2 ^ 64 - 1))) by lia.
  destruct (Z.ltb_spec (last + 60) t); [|reflexivity].
  rewrite t64_id by (unfold w64; lia). rewrite (proj2 (Z.eqb_neq _ 0)) by lia. reflexivity.
Qed.

Section Proof.
  Variable D : Type.
  Variable d_init : D.
  Variable d_seed : D -> list Z -> list Z -> Z * D.
  Variable d_gen : D -> list Z -> nat -> Z * list Z * D.
  Notation step := (srng_step d_init d_seed d_gen).
  Notation run := (srng_run d_init d_seed d_gen).
  Notation get := (get_seeded d_init d_seed).

  (** [ps]: the process ids of the calls to come. *)
  Definition sinv (s : srng D) (m : mon) (ps : list Z) : Prop :=
    0 <= s_bytes s < 2 ^ 64 /\
    ((s_last s = 0 /\ MAX_BYTES < s_bytes s) \/
     (1 <= s_last s < 2 ^ 63 /\ exists p b, m = Some (s_last s, p, b) /\
        (MAX_BYTES < s_bytes s \/ s_bytes s = b) /\ (s_pid s = p \/ ~ In (s_pid s) ps) /\
        lineage (p :: ps))).

  Lemma seed_seeded_cases : forall s init np e1 e2 t r s', seed_seeded d_seed s init np e1 e2 t = (r, s') ->
    (r < 0 /\ s_bytes s' = s_bytes s /\ s_last s' = s_last s /\ s_pid s' = s_pid s) \/
    (0 <= r /\ s_bytes s' = 0 /\ s_last s' = get_time t /\ s_pid s' = if np =? 0 then s_pid s else np).
  Proof.
    intros s init np e1 e2 t r s'. unfold seed_seeded.
    destruct (negb (ent_ok e1 32)). { intros H. injection H as <- <-. left. unfold EFAULT. repeat split; lia. }
    destruct (d_seed (s_d s) _ srng_pers) as [r1 d]. destruct (Z.ltb_spec r1 0).
    { intros E. injection E as <- <-. left. auto. }
    destruct init.
    - destruct (negb (ent_ok e2 16)). { intros E. injection E as <- <-. left. unfold EFAULT. repeat split; cbn; lia. }
      destruct (d_seed d _ []) as [r2 d2]. destruct (Z.ltb_spec r2 0); intros E; injection E as <- <-; [left|right]; auto.
    - intros E. injection E as <- <-. right. auto.
  Qed.

  (** After lc_get_seeded_rng: on failure the invariant persists; on success the state is one from which
      output may be delivered. *)
  Definition ready (s : srng D) (m : mon) (e : senv) (ps : list Z) : Prop :=
    0 <= s_bytes s < 2 ^ 64 /\ 1 <= s_last s < 2 ^ 63 /\ e_check e <= s_last s + 60 /\ s_bytes s <= MAX_BYTES /\
    m = Some (s_last s, e_pid e, s_bytes s) /\ (s_pid s = e_pid e \/ ~ In (s_pid s) ps).

  Lemma get_ok : forall s m e ps, sinv s m (e_pid e :: ps) -> clock_ok e -> e_check e <= e_time1 e + 60 -> lineage (e_pid e :: ps) ->
    let '(r, s', ev) := get s e in
    all_allowed m ev /\
    (r < 0 -> sinv s' (fold_left mon_step ev m) (e_pid e :: ps)) /\
    (0 <= r -> ready s' (fold_left mon_step ev m) e ps).
  Proof.
    intros s m e ps HI (Hc & Ht1 & Ht3) Hmono HL. pose proof HI as [HB HI'].
    pose proof HL as (Hpid & Hnr & HL'). unfold get_seeded.
    destruct (Z.eqb_spec (s_last s) 0) as [E0|E0].
    - destruct HI' as [[_ HM]|[HX _]]; [|lia].
      destruct (Z.ltb_spec (e_noise e) 0) as [N|N].
      { rewrite (proj2 (Z.ltb_lt _ _) N). split; [cbn; auto|]. split; [|intros; exfalso; lia]. intros _.
        split; [exact HB|]. left. exact (conj E0 HM). }
      rewrite (proj2 (Z.ltb_ge _ _) N). unfold must_reseed. cbn [s_bytes].
      rewrite (proj2 (Z.ltb_lt _ _) HM).
      destruct (seed_seeded d_seed _ true 0 _ _ _) as [r s'] eqn:E.
      destruct (seed_seeded_cases _ _ _ _ _ _ _ _ E) as [(R & B & L & P)|(R & B & L & P)]; cbn [s_bytes s_last s_pid] in *.
      + rewrite (proj2 (Z.ltb_lt _ _) R). split; [cbn; auto|]. split; [|intros; exfalso; lia]. intros _.
        split; [lia|]. left. lia.
      + rewrite (proj2 (Z.ltb_ge _ _) R). cbn. rewrite get_time_ok in L |- * by auto.
        change (0 =? 0) with true in P. cbn iota in P.
        split; [auto|]. split; [intros; exfalso; lia|]. intros _. unfold ready, MAX_BYTES. rewrite L, B.
        repeat (split; [lia|]). split; [reflexivity|]. left. exact P.
    - destruct HI' as [[HX _]|(HLs & p & b & Hm & Hb & Hp & Hlin)]; [lia|].
      change (0 <? 0) with false. cbn iota.
      destruct (must_reseed s e) as [mu np] eqn:EM.
      unfold must_reseed in EM. rewrite (time_check _ _ Hc HLs) in EM.
      destruct mu.
      + destruct (seed_seeded d_seed s false np _ _ _) as [r s'] eqn:E.
        destruct (seed_seeded_cases _ _ _ _ _ _ _ _ E) as [(R & B & L & P)|(R & B & L & P)].
        * rewrite (proj2 (Z.ltb_lt _ _) R). cbn. split; [exact I|]. split; [|lia]. intros _.
          split; [lia|]. right. split; [lia|]. exists p, b. rewrite L, B, P. auto.
        * rewrite (proj2 (Z.ltb_ge _ _) R). cbn. rewrite get_time_ok in L |- * by auto.
          split; [auto|]. split; [intros; exfalso; lia|]. intros _. unfold ready, MAX_BYTES. rewrite L, B.
          repeat (split; [lia|]). split; [reflexivity|].
          -- (* the process id *)
             destruct Hlin as (_ & Hq & _).
             assert (NP : np = 0 \/ np = e_pid e).
             { destruct (MAX_BYTES <? s_bytes s); [inversion EM; auto|].
               destruct (s_last s + 60 <? e_check e); [inversion EM; auto|].
               destruct (negb _); inversion EM; auto. }
             destruct NP as [->| ->]; rewrite P.
             ++ cbn [Z.eqb]. destruct Hp as [Hp|Hp].
                ** rewrite Hp. destruct Hq as [Hq|Hq]; [left; auto|right; cbn in Hq; tauto].
                ** right. cbn in Hp. tauto.
             ++ rewrite (proj2 (Z.eqb_neq _ 0)) by lia. left. reflexivity.
      + change (0 <? 0) with false. cbn iota. split; [exact I|]. split; [lia|]. intros _.
        destruct (Z.ltb_spec MAX_BYTES (s_bytes s)); [discriminate|].
        destruct (Z.ltb_spec (s_last s + 60) (e_check e)); [discriminate|].
        destruct (Z.eqb_spec (s_pid s) (e_pid e)) as [EP|EP]; [|discriminate].
        destruct Hp as [Hp|Hp]; [|exfalso; apply Hp; cbn; auto].
        destruct Hb as [Hb|Hb]; [lia|].
        unfold ready. repeat (split; [lia|]). split; [|left; exact EP].
        cbn [fold_left]. rewrite Hm. rewrite <- Hp, EP, Hb. reflexivity.
  Qed.

  Lemma ready_inv : forall s m e ps, ready s m e ps -> lineage (e_pid e :: ps) -> sinv s m ps.
  Proof.
    intros s m e ps (B & L & C & M & E & P) HL. split; [auto|]. right. split; [auto|].
    exists (e_pid e), (s_bytes s). auto.
  Qed.
  Lemma sinv_tail : forall s m p ps, sinv s m (p :: ps) -> lineage (p :: ps) -> sinv s m ps.
  Proof.
    intros s m q ps (B & [H|(L & p & b & E & X & P & HL)]) HQ; split; auto. right. split; auto.
    exists p, b. repeat split; auto.
    - destruct P as [P|P]; [auto|]. right. cbn in P. tauto.
    - apply HL.
    - destruct HL as (_ & [H|H] & _ & H2 & _); destruct ps as [|r ps]; auto.
      + subst q. exact H2.
      + right. cbn in H |- *. tauto.
    - apply HQ.
  Qed.

  Lemma step_ok : forall s m e c ps, sinv s m (e_pid e :: ps) -> clock_ok e -> e_check e <= e_time1 e + 60 ->
    lineage (e_pid e :: ps) -> call_ok c ->
    let '(r, o, s', ev) := step s e c in
    all_allowed m ev /\ sinv s' (fold_left mon_step ev m) ps.
  Proof.
    intros s m e c ps HI HC Hmono HL Hcall. pose proof (get_ok s m e ps HI HC Hmono HL) as G.
    destruct c as [a n|x p]; cbn [srng_step].
    - unfold seeded_generate. destruct (get s e) as [[r s1] ev]. destruct G as (A & G1 & G2).
      destruct (Z.ltb_spec r 0) as [R|R].
      + split; [exact A|]. apply (sinv_tail _ _ _ _ (G1 R) HL).
      + specialize (G2 R). destruct (d_gen (s_d s1) a n) as [[r2 o] d].
        destruct (Z.ltb_spec r2 0).
        * split; [exact A|]. destruct (ready_inv _ _ _ _ G2 HL) as [B I]. split; [exact B|exact I].
        * rewrite all_allowed_app, fold_left_app. pose proof G2 as (B & L & C & M & E & P).
          destruct HC as (Hc & _ & _).
          split.
          -- split; [exact A|]. cbn [all_allowed allowed]. rewrite get_time_ok by auto. split; [|exact I].
             exists (s_last s1), (s_bytes s1). auto.
          -- cbn [fold_left mon_step]. rewrite E. cbn in Hcall. unfold MAX_BYTES in M.
             set (u := t64 (s_bytes s1 + Z.of_nat n)).
             assert (U : (s_bytes s1 + Z.of_nat n < 2 ^ 64 /\ u = s_bytes s1 + Z.of_nat n) \/
                         (2 ^ 64 <= s_bytes s1 + Z.of_nat n /\ u = s_bytes s1 + Z.of_nat n - 2 ^ 64)).
             { unfold u. rewrite t64_mod. destruct (Z.lt_ge_cases (s_bytes s1 + Z.of_nat n) (2 ^ 64)).
               - left. split; auto. apply Z.mod_small. lia.
               - right. split; auto. symmetry. apply (Z.mod_unique _ _ 1); lia. }
             clearbody u. split; cbn [s_bytes s_last s_pid].
             ++ destruct (Z.ltb_spec u (s_bytes s1)); lia.
             ++ right. split; [auto|]. exists (e_pid e), (s_bytes s1 + Z.of_nat n). split; [reflexivity|].
                split; [|split; [exact P|exact HL]].
                destruct (Z.ltb_spec u (s_bytes s1)); [left; unfold MAX_BYTES|right]; lia.
    - unfold seeded_seed. destruct (get s e) as [[r s1] ev]. destruct G as (A & G1 & G2).
      destruct (Z.ltb_spec r 0) as [R|R].
      + split; [exact A|]. apply (sinv_tail _ _ _ _ (G1 R) HL).
      + specialize (G2 R). destruct (seed_seeded d_seed s1 false 0 _ _ _) as [r2 s2] eqn:E.
        pose proof G2 as (B & L & C & M & EM & P).
        destruct (seed_seeded_cases _ _ _ _ _ _ _ _ E) as [(R2 & B2 & L2 & P2)|(R2 & B2 & L2 & P2)].
        * rewrite (proj2 (Z.ltb_lt _ _) R2). split; [exact A|].
          destruct (ready_inv _ _ _ _ G2 HL) as [Bx I]. unfold sinv. rewrite B2, L2, P2. split; [exact Bx|exact I].
        * rewrite (proj2 (Z.ltb_ge _ _) R2). destruct (d_seed (s_d s2) x p) as [r3 d].
          rewrite all_allowed_app, fold_left_app. split; [split; [exact A|cbn; auto]|].
          destruct HC as (_ & _ & Ht3). cbn [fold_left mon_step]. rewrite get_time_ok in L2 |- * by auto.
          split; cbn [s_bytes s_last s_pid]; [lia|]. right. split; [lia|].
          exists (e_pid e), 0. rewrite L2, P2, B2. change (0 =? 0) with true. cbn iota. auto.
  Qed.

  Lemma run_ok : forall l s m, sinv s m (map (fun ec => e_pid (fst ec)) l) ->
    Forall (fun ec => clock_ok (fst ec) /\ e_check (fst ec) <= e_time1 (fst ec) + 60 /\ call_ok (snd ec)) l ->
    lineage (map (fun ec => e_pid (fst ec)) l) ->
    all_allowed m (snd (run s l)).
  Proof.
    induction l as [|[e c] l IH]; intros s m HI HF HL; [exact I|].
    inversion HF as [|? ? (HC & Hmono & Hcall) HF']; subst. cbn [map fst snd] in *.
    cbn [srng_run]. pose proof (step_ok s m e c _ HI HC Hmono HL Hcall) as S.
    destruct (step s e c) as [[[r o] s1] ev]. destruct S as [A I1].
    specialize (IH s1 _ I1 HF' (proj2 (proj2 HL))). destruct (run s1 l) as [[os s2] evs]. cbn [snd] in *.
    apply all_allowed_app. auto.
  Qed.

  Lemma run0_ok : forall d l,
    Forall (fun ec => clock_ok (fst ec) /\ e_check (fst ec) <= e_time1 (fst ec) + 60 /\ call_ok (snd ec)) l ->
    lineage (map (fun ec => e_pid (fst ec)) l) ->
    all_allowed None (snd (run (srng0 d) l)).
  Proof.
    intros d l HF HL. apply run_ok; auto. split; [cbn; unfold MAX_BYTES; lia|]. left. cbn. unfold MAX_BYTES. lia.
  Qed.
End Proof.
