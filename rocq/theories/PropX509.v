(** * Properties C85-C89: X.509 times, validity, policies, extensions, names *)
From Coq Require Import ZArith List Lia Bool.
Import ListNotations.
From Verif Require Import Bytes X509Model.
From Verif Require UtilModel UtilProof.
Open Scope Z_scope.

(** ** The calendar (specification) *)
(** Proleptic Gregorian calendar, counted from 1970-01-01T00:00:00Z. *)
Definition leap (y : Z) : bool := (y mod 4 =? 0) && (negb (y mod 100 =? 0) || (y mod 400 =? 0)).
Definition days_in_year (y : Z) : Z := if leap y then 366 else 365.
Definition days_in_month (y m : Z) : Z :=
  if m =? 2 then (if leap y then 29 else 28)
  else if (m =? 4) || (m =? 6) || (m =? 9) || (m =? 11) then 30 else 31.
(** days of the [n] years from 1970 on *)
Fixpoint days_of_years (n : nat) : Z := match n with O => 0 | S n => days_of_years n + days_in_year (1970 + Z.of_nat n) end.
(** days of the first [n] months of year [y] *)
Fixpoint days_of_months (y : Z) (n : nat) : Z :=
  match n with O => 0 | S n => days_of_months y n + days_in_month y (Z.of_nat n + 1) end.
Record date := { d_y : Z; d_m : Z; d_d : Z; d_h : Z; d_mi : Z; d_s : Z }.
Definition day_number (t : date) : Z :=
  days_of_years (Z.to_nat (d_y t - 1970)) + days_of_months (d_y t) (Z.to_nat (d_m t - 1)) + (d_d t - 1).
Definition epoch_seconds (t : date) : Z := ((day_number t * 24 + d_h t) * 60 + d_mi t) * 60 + d_s t.
Definition real_day (t : date) : Prop := 1970 <= d_y t <= 9999 /\ 1 <= d_m t <= 12 /\ 1 <= d_d t <= days_in_month (d_y t) (d_m t).
Definition real_date (t : date) : Prop := real_day t /\ 0 <= d_h t <= 23 /\ 0 <= d_mi t <= 59 /\ 0 <= d_s t <= 59.
(** The text of RFC 5280 4.1.2.5: UTCTime through 2049, GeneralizedTime from
    2050 on. *)
Definition two (n : Z) : list Z := [48 + n / 10; 48 + n mod 10].
Definition tail_text (t : date) : list Z := two (d_m t) ++ two (d_d t) ++ two (d_h t) ++ two (d_mi t) ++ two (d_s t) ++ [90].
Definition rfc5280_time (t : date) : Z * list Z :=
  if d_y t <? 2050 then (23, two (d_y t mod 100) ++ tail_text t)
  else (24, two (d_y t / 100) ++ two (d_y t mod 100) ++ tail_text t).

(** ** mktime64 computes the calendar *)
Lemma div_step : forall y k, 0 < k -> y / k - (y - 1) / k = if y mod k =? 0 then 1 else 0.
Proof.
  intros y k K. pose proof (Z.div_mod y k ltac:(lia)) as D. pose proof (Z.mod_pos_bound y k K) as B.
  destruct (Z.eqb_spec (y mod k) 0) as [E|E].
  - assert ((y - 1) / k = y / k - 1).
    { symmetry. apply Z.div_unique with (r := k - 1); lia. }
    lia.
  - assert ((y - 1) / k = y / k).
    { symmetry. apply Z.div_unique with (r := y mod k - 1); lia. }
    lia.
Qed.
Lemma mod_4 : forall y, (y mod 100 =? 0) = true -> (y mod 4 =? 0) = true.
Proof.
  intros y E. apply Z.eqb_eq in E. apply Z.eqb_eq. apply Z.mod_divide in E; [|lia]. apply Z.mod_divide; [lia|].
  destruct E as [q ->]. exists (q * 25). lia.
Qed.
Lemma mod_100 : forall y, (y mod 400 =? 0) = true -> (y mod 100 =? 0) = true.
Proof.
  intros y E. apply Z.eqb_eq in E. apply Z.eqb_eq. apply Z.mod_divide in E; [|lia]. apply Z.mod_divide; [lia|].
  destruct E as [q ->]. exists (q * 4). lia.
Qed.
Definition F (y : Z) : Z := y / 4 - y / 100 + y / 400 + y * 365.
Lemma F_step : forall y, F y = F (y - 1) + days_in_year y.
Proof.
  intros y. unfold F, days_in_year, leap. pose proof (div_step y 4 ltac:(lia)). pose proof (div_step y 100 ltac:(lia)).
  pose proof (div_step y 400 ltac:(lia)). pose proof (mod_4 y). pose proof (mod_100 y).
  destruct (y mod 4 =? 0), (y mod 100 =? 0), (y mod 400 =? 0); cbn [negb andb orb] in *; try lia;
    try (specialize (H2 eq_refl); discriminate); try (specialize (H3 eq_refl); discriminate).
Qed.
Lemma days_of_years_F : forall n, days_of_years n = F (1969 + Z.of_nat n) - 719162.
Proof.
  induction n as [|n IH]; [reflexivity|]. cbn [days_of_years]. rewrite IH.
  rewrite (F_step (1969 + Z.of_nat (S n))). replace (1969 + Z.of_nat (S n) - 1) with (1969 + Z.of_nat n) by lia.
  replace (1970 + Z.of_nat n) with (1969 + Z.of_nat (S n)) by lia. lia.
Qed.
Lemma twelve : forall m, 1 <= m <= 12 -> m = 1 \/ m = 2 \/ m = 3 \/ m = 4 \/ m = 5 \/ m = 6 \/ m = 7 \/ m = 8 \/ m = 9 \/ m = 10 \/ m = 11 \/ m = 12.
Proof. lia. Qed.
Lemma mktime_days : forall y m d h mi s, 1970 <= y -> 1 <= m <= 12 ->
  mktime64 y m d h mi s = epoch_seconds {| d_y := y; d_m := m; d_d := d; d_h := h; d_mi := mi; d_s := s |}.
Proof.
  intros y m d h mi s Y M. unfold epoch_seconds, day_number. cbn [d_y d_m d_d d_h d_mi d_s].
  rewrite days_of_years_F. replace (1969 + Z.of_nat (Z.to_nat (y - 1970))) with (y - 1) by lia.
  pose proof (F_step y) as S. unfold days_in_year in S.
  unfold mktime64. assert (G : forall Y0, Y0 / 4 - Y0 / 100 + Y0 / 400 = F Y0 - Y0 * 365) by (intros; unfold F; lia).
  destruct (twelve m M) as [->|[->|[->|[->|[->|[->|[->|[->|[->|[->|[->| ->]]]]]]]]]]];
    match goal with |- context [?a - 2 <=? 0] => let v := eval vm_compute in (a - 2 <=? 0) in change (a - 2 <=? 0) with v end;
    cbv beta iota; rewrite G;
    match goal with |- context [days_of_months y ?n] => let v := eval vm_compute in n in change n with v end;
    cbn [days_of_months]; unfold days_in_month;
    repeat match goal with |- context [Z.of_nat ?k + 1] => let v := eval vm_compute in (Z.of_nat k + 1) in change (Z.of_nat k + 1) with v end;
    cbn [Z.eqb Pos.eqb orb];
    match goal with |- context [367 * ?k / 12] => let v := eval vm_compute in (367 * k / 12) in change (367 * k / 12) with v end;
    destruct (leap y); lia.
Qed.
Lemma mon_len_ok : forall y m, 1 <= m <= 12 -> mon_len y m = days_in_month y m.
Proof.
  intros y m M. unfold mon_len, days_in_month, leap.
  pose proof (mod_4 y). pose proof (mod_100 y).
  destruct (twelve m M) as [->|[->|[->|[->|[->|[->|[->|[->|[->|[->|[->| ->]]]]]]]]]]]; try reflexivity.
  cbn [Z.eqb Pos.eqb]. destruct (y mod 4 =? 0), (y mod 100 =? 0), (y mod 400 =? 0); reflexivity.
Qed.

(** ** The digits *)
Lemma DD2bin_two : forall n r, 0 <= n < 100 -> DD2bin (two n ++ r) = Some (n, r).
Proof.
  intros n r N. unfold two. cbn [app DD2bin]. pose proof (Z.div_mod n 10 ltac:(lia)) as D.
  pose proof (Z.mod_pos_bound n 10 ltac:(lia)) as B.
  assert (Q : 0 <= n / 10 < 10) by (split; [apply Z.div_pos; lia|apply Z.div_lt_upper_bound; lia]).
  assert (DB : forall x, 0 <= x < 10 -> dec2bin (48 + x) = Some x).
  { intros x X. unfold dec2bin. replace (48 + x - 48) with x by lia. rewrite (Z.mod_small x 256) by lia.
    destruct (Z.ltb_spec 9 x); [lia|reflexivity]. }
  rewrite (DB (n / 10) Q), (DB (n mod 10) B). f_equal. f_equal. lia.
Qed.
Lemma DD2bin_inv : forall l n r, bytes l -> DD2bin l = Some (n, r) -> 0 <= n < 100 /\ l = two n ++ r /\ bytes r.
Proof.
  intros l n r BL E. destruct l as [|a [|b l]]; try discriminate. cbn [DD2bin] in E.
  inversion BL as [|? ? BA BL1]; subst. inversion BL1 as [|? ? BB BL2]; subst. red in BA, BB.
  assert (DI : forall x v, 0 <= x < 256 -> dec2bin x = Some v -> x = 48 + v /\ 0 <= v < 10).
  { intros x v X Y. unfold dec2bin in Y. destruct (Z.ltb_spec 9 ((x - 48) mod 256)) as [L|L]; [discriminate|]. injection Y as <-.
    pose proof (Z.mod_pos_bound (x - 48) 256 ltac:(lia)). pose proof (Z.div_mod (x - 48) 256 ltac:(lia)).
    assert (Q : (x - 48) / 256 = 0 \/ (x - 48) / 256 = -1) by nia. destruct Q as [Q|Q]; rewrite Q in *; lia. }
  destruct (dec2bin a) as [x|] eqn:EA; [|discriminate]. destruct (dec2bin b) as [y|] eqn:EB; [|discriminate].
  injection E as <- <-. apply DI in EA; [|auto]. apply DI in EB; [|auto]. destruct EA as [-> X]. destruct EB as [-> Y].
  split; [lia|]. split; [|exact BL2]. unfold two. cbn [app]. f_equal; [|f_equal].
  - f_equal. apply Z.div_unique with (r := y); lia.
  - f_equal. apply Z.mod_unique with (q := x); lia.
Qed.

(** ** C86: reading a time *)
(** The day of the month, the hours up to 24 and seconds up to 60: what the
    parser takes. *)
Definition taken (t : date) : Prop := real_day t /\ 0 <= d_h t <= 24 /\ 0 <= d_mi t <= 59 /\ 0 <= d_s t <= 60.
Lemma days_in_month_31 : forall y m, days_in_month y m <= 31.
Proof.
  intros y m. unfold days_in_month. destruct (m =? 2); [destruct (leap y); lia|]. destruct (_ || _); lia.
Qed.
Lemma decode_rest_ok : forall t, taken t -> decode_rest (d_y t) (tail_text t) = (0, Some (epoch_seconds t)).
Proof.
  intros t ((Y&M&D)&H&MI&S). unfold decode_rest, tail_text. pose proof (days_in_month_31 (d_y t) (d_m t)).
  repeat (rewrite DD2bin_two by lia).
  cbn [nth]. change (90 =? 90) with true. cbn [negb]. rewrite mon_len_ok by auto.
  destruct (Z.ltb_spec (d_y t) 1970); [lia|]. destruct (Z.ltb_spec (d_m t) 1); [lia|]. destruct (Z.ltb_spec 12 (d_m t)); [lia|].
  destruct (Z.ltb_spec (d_d t) 1); [lia|]. destruct (Z.ltb_spec (days_in_month (d_y t) (d_m t)) (d_d t)); [lia|].
  destruct (Z.ltb_spec 24 (d_h t)); [lia|]. destruct (Z.ltb_spec 59 (d_mi t)); [lia|]. destruct (Z.ltb_spec 60 (d_s t)); [lia|].
  cbn [orb]. rewrite mktime_days by lia. destruct t; reflexivity.
Qed.
Lemma decode_taken : forall t, taken t -> decode_time (fst (rfc5280_time t)) (snd (rfc5280_time t)) = (0, Some (epoch_seconds t)).
Proof.
  intros t T. pose proof T as ((Y&_)&_). unfold rfc5280_time. pose proof (Z.mod_pos_bound (d_y t) 100 ltac:(lia)) as B.
  pose proof (Z.div_mod (d_y t) 100 ltac:(lia)) as DM.
  destruct (Z.ltb_spec (d_y t) 2050) as [L|L]; cbn [fst snd]; unfold decode_time.
  - change (23 =? ASN1_UNITIM) with true. cbn iota.
    change (length (two (d_y t mod 100) ++ tail_text t) =? 13)%nat with true. cbn [negb].
    rewrite DD2bin_two by lia. rewrite <- (decode_rest_ok t T). f_equal.
    assert (Q : d_y t / 100 = 19 \/ d_y t / 100 = 20) by lia.
    destruct Q as [Q|Q]; rewrite Q in DM; destruct (Z.leb_spec 50 (d_y t mod 100)); lia.
  - change (24 =? ASN1_UNITIM) with false. change (24 =? ASN1_GENTIM) with true. cbn iota.
    change (length (two (d_y t / 100) ++ two (d_y t mod 100) ++ tail_text t) =? 15)%nat with true. cbn [negb].
    rewrite DD2bin_two by lia. rewrite DD2bin_two by lia. cbv zeta.
    replace (d_y t / 100 * 100 + d_y t mod 100) with (d_y t) by lia.
    destruct (Z.leb_spec (d_y t) 2049); [lia|]. rewrite andb_false_r. apply decode_rest_ok. exact T.
Qed.
Lemma epoch_nonneg : forall t, taken t -> 0 <= epoch_seconds t.
Proof.
  intros t ((Y&M&D)&H&MI&S). unfold epoch_seconds.
  assert (0 <= day_number t); [|lia]. unfold day_number.
  assert (A : forall n, 0 <= days_of_years n).
  { induction n; cbn [days_of_years]; [lia|]. unfold days_in_year. destruct (leap _); lia. }
  assert (B : forall n, 0 <= days_of_months (d_y t) n).
  { induction n; cbn [days_of_months]; [lia|]. unfold days_in_month. destruct (_ =? 2); [destruct (leap _); lia|]. destruct (_ || _); lia. }
  pose proof (A (Z.to_nat (d_y t - 1970))). pose proof (B (Z.to_nat (d_m t - 1))). lia.
Qed.

(** Every date from 1970 to 9999, written as RFC 5280 demands, is read as the
    number of seconds the calendar gives. *)
Theorem C86_decode : forall t, real_date t ->
  decode_time (fst (rfc5280_time t)) (snd (rfc5280_time t)) = (0, Some (epoch_seconds t)).
Proof. intros t (A&H&MI&S). apply decode_taken. split; [exact A|]. lia. Qed.
Print Assumptions C86_decode.
Example C86_decode_ex :
  let t := {| d_y := 2024; d_m := 2; d_d := 29; d_h := 23; d_mi := 59; d_s := 59 |} in
  real_date t /\ epoch_seconds t = 1709251199 /\
  decode_time 23 [50; 52; 48; 50; 50; 57; 50; 51; 53; 57; 53; 57; 90] = (0, Some 1709251199) /\
  decode_time 23 [50; 51; 48; 50; 50; 57; 50; 51; 53; 57; 53; 57; 90] = (EBADMSG, None).
Proof. cbv zeta. split; [unfold real_date, real_day; cbn; lia|]. vm_compute. auto. Qed.

(** What is read comes from such a text - with hours up to 24 and seconds up
    to 60 - and from nothing else. *)
Theorem C86_accepts_partial : forall tag v r, bytes v -> decode_time tag v = (0, Some r) ->
  exists t, taken t /\ rfc5280_time t = (tag, v) /\ r = epoch_seconds t.
Proof.
  intros tag v r BV E.
  assert (REST : forall y w r', bytes w -> length w = 11%nat -> y <= 9999 -> decode_rest y w = (0, Some r') ->
            exists t, taken t /\ d_y t = y /\ w = tail_text t /\ r' = epoch_seconds t).
  { clear. intros y w r BW LW Y9 E. unfold decode_rest in E.
    destruct (DD2bin w) as [[m w1]|] eqn:E1; [|discriminate]. apply DD2bin_inv in E1; [|auto]. destruct E1 as (B1&->&W1).
    destruct (DD2bin w1) as [[d w2]|] eqn:E2; [|discriminate]. apply DD2bin_inv in E2; [|auto]. destruct E2 as (B2&->&W2).
    destruct (DD2bin w2) as [[h w3]|] eqn:E3; [|discriminate]. apply DD2bin_inv in E3; [|auto]. destruct E3 as (B3&->&W3).
    destruct (DD2bin w3) as [[mi w4]|] eqn:E4; [|discriminate]. apply DD2bin_inv in E4; [|auto]. destruct E4 as (B4&->&W4).
    destruct (DD2bin w4) as [[s w5]|] eqn:E5; [|discriminate]. apply DD2bin_inv in E5; [|auto]. destruct E5 as (B5&->&W5).
    destruct w5 as [|z [|? ?]]; cbn [two app length] in LW; try discriminate LW. cbn [nth] in E.
    destruct (Z.eqb_spec z 90) as [->|]; cbn [negb] in E; [|discriminate].
    destruct (Z.ltb_spec y 1970); [discriminate|]. destruct (Z.ltb_spec m 1); [discriminate|]. destruct (Z.ltb_spec 12 m); [discriminate|].
    cbn [orb] in E. rewrite mon_len_ok in E by lia.
    destruct (Z.ltb_spec d 1); [discriminate|]. destruct (Z.ltb_spec (days_in_month y m) d); [discriminate|].
    destruct (Z.ltb_spec 24 h); [discriminate|]. destruct (Z.ltb_spec 59 mi); [discriminate|]. destruct (Z.ltb_spec 60 s); [discriminate|].
    cbn [orb] in E. injection E as <-.
    exists {| d_y := y; d_m := m; d_d := d; d_h := h; d_mi := mi; d_s := s |}. split.
    - unfold taken, real_day. cbn [d_y d_m d_d d_h d_mi d_s]. lia.
    - split; [reflexivity|]. split; [reflexivity|]. apply mktime_days; lia. }
  unfold decode_time in E. destruct (Z.eqb_spec tag ASN1_UNITIM) as [->|].
  - destruct (Nat.eqb_spec (length v) 13) as [L|]; cbn [negb] in E; [|discriminate].
    destruct (DD2bin v) as [[yy w]|] eqn:EY; [|discriminate]. apply DD2bin_inv in EY; [|auto]. destruct EY as (BY&->&BW).
    cbn [two app length] in L. apply REST in E; [|auto|lia|destruct (50 <=? yy); lia]. destruct E as (t&T&TY&->&->).
    exists t. split; [exact T|]. split; [|reflexivity]. unfold rfc5280_time.
    assert (YM : d_y t mod 100 = yy /\ d_y t < 2050).
    { destruct (Z.leb_spec 50 yy); rewrite TY; (split; [|lia]); symmetry; [apply Z.mod_unique with (q := 19)|apply Z.mod_unique with (q := 20)]; lia. }
    destruct YM as [-> Y2]. destruct (Z.ltb_spec (d_y t) 2050); [reflexivity|lia].
  - destruct (Z.eqb_spec tag ASN1_GENTIM) as [->|]; [|discriminate].
    destruct (Nat.eqb_spec (length v) 15) as [L|]; cbn [negb] in E; [|discriminate].
    destruct (DD2bin v) as [[cc w]|] eqn:EY; [|discriminate]. apply DD2bin_inv in EY; [|auto]. destruct EY as (BY&->&BW).
    destruct (DD2bin w) as [[yy w']|] eqn:EZ; [|discriminate]. apply DD2bin_inv in EZ; [|auto]. destruct EZ as (BZ&->&BW').
    cbn [two app length] in L. cbv zeta in E.
    destruct ((1950 <=? cc * 100 + yy) && (cc * 100 + yy <=? 2049)) eqn:R; [discriminate|].
    apply REST in E; [|auto|lia|lia]. destruct E as (t&T&TY&->&->).
    exists t. split; [exact T|]. split; [|reflexivity]. unfold rfc5280_time. destruct T as ((Y&_)&_).
    assert (d_y t mod 100 = yy) as -> by (rewrite TY; symmetry; apply Z.mod_unique with (q := cc); lia).
    assert (d_y t / 100 = cc) as -> by (rewrite TY; symmetry; apply Z.div_unique with (r := yy); lia).
    apply andb_false_iff in R. destruct (Z.ltb_spec (d_y t) 2050); [|reflexivity]. destruct R as [R|R]; apply Z.leb_gt in R; lia.
Qed.
Print Assumptions C86_accepts_partial.
Example C86_accepts_partial_ex : decode_time 24 [50; 48; 53; 48; 48; 49; 48; 49; 48; 48; 48; 48; 48; 48; 90] = (0, Some 2524608000).
Proof. reflexivity. Qed.

(** "Only real times of day are accepted" is false: 24:59:60 is, and is read
    as the same second as 01:00:00 of the next day. *)
Theorem C86_accepts_refuted : exists v w r,
  decode_time 23 v = (0, Some r) /\ decode_time 23 w = (0, Some r) /\ v <> w /\
  (forall t, real_date t -> rfc5280_time t <> (23, v)).
Proof.
  set (v := two 24 ++ tail_text {| d_y := 2024; d_m := 1; d_d := 1; d_h := 24; d_mi := 59; d_s := 60 |}).
  exists v, (two 24 ++ tail_text {| d_y := 2024; d_m := 1; d_d := 2; d_h := 1; d_mi := 0; d_s := 0 |}). eexists.
  split; [vm_compute; reflexivity|]. split; [vm_compute; reflexivity|]. split; [vm_compute; discriminate|].
  intros t (A&H&MI&S) E. unfold rfc5280_time in E. destruct (d_y t <? 2050); [|discriminate]. apply (f_equal snd) in E. cbn [snd] in E.
  assert (E6 : 48 + d_h t / 10 = 50 /\ 48 + d_h t mod 10 = 52).
  { apply (f_equal (fun l => (nth 6 l 0, nth 7 l 0))) in E. unfold v, tail_text, two in E. cbn [app nth] in E.
    change (d_h {| d_y := 2024; d_m := 1; d_d := 1; d_h := 24; d_mi := 59; d_s := 60 |}) with 24 in E.
    change (24 / 10) with 2 in E. change (24 mod 10) with 4 in E.
    split; [apply (f_equal fst) in E|apply (f_equal snd) in E]; cbn [fst snd] in E; lia. }
  pose proof (Z.div_mod (d_h t) 10 ltac:(lia)). lia.
Qed.
Print Assumptions C86_accepts_refuted.

(** Dates are ordered like the numbers. *)
Definition earlier_day (a b : date) : Prop :=
  d_y a < d_y b \/ (d_y a = d_y b /\ (d_m a < d_m b \/ (d_m a = d_m b /\ d_d a < d_d b))).
Definition earlier (a b : date) : Prop :=
  earlier_day a b \/ (d_y a = d_y b /\ d_m a = d_m b /\ d_d a = d_d b /\
    (d_h a < d_h b \/ (d_h a = d_h b /\ (d_mi a < d_mi b \/ (d_mi a = d_mi b /\ d_s a < d_s b))))).
Lemma months_mono : forall y n m, (n <= m)%nat -> days_of_months y n <= days_of_months y m.
Proof.
  intros y n m L. induction L; [lia|]. cbn [days_of_months]. unfold days_in_month. destruct (_ =? 2); [destruct (leap y); lia|].
  destruct (_ || _); lia.
Qed.
Lemma years_mono : forall n m, (n <= m)%nat -> days_of_years n <= days_of_years m.
Proof. intros n m L. induction L; [lia|]. cbn [days_of_years]. unfold days_in_year. destruct (leap _); lia. Qed.
Lemma day_in_year : forall t, real_day t ->
  0 <= days_of_months (d_y t) (Z.to_nat (d_m t - 1)) + (d_d t - 1) < days_in_year (d_y t).
Proof.
  intros t (Y&M&D).
  assert (A : days_of_months (d_y t) 12 = days_in_year (d_y t)).
  { unfold days_in_year. cbn [days_of_months]. unfold days_in_month. cbn [Z.of_nat Pos.of_succ_nat Pos.succ Z.add Z.eqb Pos.eqb orb Pos.add].
    destruct (leap (d_y t)); reflexivity. }
  pose proof (months_mono (d_y t) (S (Z.to_nat (d_m t - 1))) 12 ltac:(lia)) as B. rewrite A in B. cbn [days_of_months] in B.
  replace (Z.of_nat (Z.to_nat (d_m t - 1)) + 1) with (d_m t) in B by lia.
  pose proof (months_mono (d_y t) 0 (Z.to_nat (d_m t - 1)) ltac:(lia)) as C. cbn [days_of_months] in C. lia.
Qed.
Lemma day_order : forall a b, real_day a -> real_day b -> earlier_day a b -> day_number a < day_number b.
Proof.
  intros a b A B E. pose proof (day_in_year a A) as DA. pose proof (day_in_year b B) as DB. unfold day_number.
  destruct A as (YA&MA&DDA). destruct B as (YB&MB&DDB). destruct E as [E|(E1&[E|(E2&E)])].
  - pose proof (years_mono (S (Z.to_nat (d_y a - 1970))) (Z.to_nat (d_y b - 1970)) ltac:(lia)) as Q. cbn [days_of_years] in Q.
    replace (1970 + Z.of_nat (Z.to_nat (d_y a - 1970))) with (d_y a) in Q by lia. lia.
  - rewrite E1 in *. pose proof (months_mono (d_y b) (S (Z.to_nat (d_m a - 1))) (Z.to_nat (d_m b - 1)) ltac:(lia)) as Q.
    cbn [days_of_months] in Q. replace (Z.of_nat (Z.to_nat (d_m a - 1)) + 1) with (d_m a) in Q by lia. lia.
  - rewrite E1, E2 in *. lia.
Qed.
Theorem C86_order : forall a b, real_date a -> real_date b -> (earlier a b <-> epoch_seconds a < epoch_seconds b).
Proof.
  assert (O : forall a b, real_date a -> real_date b -> earlier a b -> epoch_seconds a < epoch_seconds b).
  { intros a b (A&A') (B&B') E. unfold epoch_seconds. destruct E as [E|(E1&E2&E3&E)].
    - pose proof (day_order a b A B E). lia.
    - assert (day_number a = day_number b) as -> by (unfold day_number; rewrite E1, E2, E3; reflexivity). lia. }
  intros a b A B. split; [apply O; auto|]. intros L.
  destruct (Z.eq_dec (epoch_seconds a) (epoch_seconds b)); [lia|].
  assert (T : earlier a b \/ earlier b a \/ (d_y a = d_y b /\ d_m a = d_m b /\ d_d a = d_d b /\ d_h a = d_h b /\ d_mi a = d_mi b /\ d_s a = d_s b)).
  { unfold earlier, earlier_day. lia. }
  destruct T as [T|[T|(T1&T2&T3&T4&T5&T6)]]; [exact T|apply O in T; auto; lia|].
  exfalso. unfold epoch_seconds, day_number in *. rewrite T1, T2, T3, T4, T5, T6 in *. lia.
Qed.
Print Assumptions C86_order.
Example C86_order_ex : earlier {| d_y := 1999; d_m := 12; d_d := 31; d_h := 23; d_mi := 59; d_s := 59 |}
                               {| d_y := 2000; d_m := 1; d_d := 1; d_h := 0; d_mi := 0; d_s := 0 |}.
Proof. left. left. cbn. lia. Qed.

(** ** C87: writing the validity period and reading it back *)
(** gmtime(3), as the standard describes it *)
Definition date_of (d : tm) : date :=
  {| d_y := tm_year d + 1900; d_m := tm_mon d + 1; d_d := tm_mday d; d_h := tm_hour d; d_mi := tm_min d; d_s := tm_sec d |}.
Definition is_gmtime (gmtime : Z -> tm) : Prop :=
  forall t, 0 <= t < 253402300800 -> real_date (date_of (gmtime t)) /\ epoch_seconds (date_of (gmtime t)) = t.
Lemma year_2050 : forall d, real_date d -> (d_y d < 2050 <-> epoch_seconds d < 2524608000).
Proof.
  intros d D. set (e := {| d_y := 2050; d_m := 1; d_d := 1; d_h := 0; d_mi := 0; d_s := 0 |}).
  assert (RE : real_date e) by (unfold real_date, real_day, e; cbn; lia).
  assert (EE : epoch_seconds e = 2524608000) by (vm_compute; reflexivity). rewrite <- EE, <- (C86_order d e D RE).
  unfold earlier, earlier_day, e. cbn [d_y d_m d_d d_h d_mi d_s]. destruct D as ((Y&M&DD)&H&MI&S). lia.
Qed.
Lemma print_two : forall n, print2 n = two n.
Proof. reflexivity. Qed.
Lemma time_enc_ok : forall gm from to fin g t, is_gmtime gm -> 0 <= t < 253402300800 -> g_set g = false ->
  (if g_time g =? 0 then from else to) = t ->
  time_enc gm from to fin g =
    (fst (fin {| g_time := t; g_set := true |}), [rfc5280_time (date_of (gm t))], snd (fin {| g_time := t; g_set := true |})).
Proof.
  intros gm from to fin g t G T S E. destruct (G t T) as [D DE]. pose proof (year_2050 _ D) as Y. rewrite DE in Y.
  unfold time_enc, uct_enc, gen_enc. rewrite S, E. unfold rfc5280_time.
  destruct (Z.leb_spec 2524608000 t) as [L|L].
  - cbn [g_set]. rewrite S, E. destruct (Z.ltb_spec t 2524608000); [lia|].
    destruct (Z.ltb_spec (d_y (date_of (gm t))) 2050) as [Q|Q]; [lia|].
    destruct (fin {| g_time := t; g_set := true |}) as [rc g3]. cbn [fst snd app print4 print2].
    unfold tail_text, date_of, two, ASN1_GENTIM. cbn [d_y d_m d_d d_h d_mi d_s app]. reflexivity.
  - cbn [g_set]. destruct (Z.ltb_spec (d_y (date_of (gm t))) 2050) as [Q|Q]; [|lia].
    destruct (fin {| g_time := t; g_set := true |}) as [rc g3]. cbn [fst snd app print2].
    unfold tail_text, date_of, two, ASN1_UNITIM. cbn [d_y d_m d_d d_h d_mi d_s app].
    assert ((tm_year (gm t) + 1900) mod 100 = tm_year (gm t) mod 100) as ->; [|reflexivity].
    replace (tm_year (gm t) + 1900) with (tm_year (gm t) + 19 * 100) by lia. apply Z_mod_plus_full.
Qed.
(** For every pair of times with a notBefore after the epoch the generator
    writes two elements that the parser reads back as those times. *)
Theorem C87_roundtrip_partial : forall gm from to, is_gmtime gm -> 0 < from < 253402300800 -> 0 <= to < 253402300800 ->
  exists a b, validity_enc gm from to = (0, [a], [b]) /\
    decode_time (fst a) (snd a) = (0, Some from) /\ decode_time (fst b) (snd b) = (0, Some to).
Proof.
  intros gm from to G Fr T. exists (rfc5280_time (date_of (gm from))), (rfc5280_time (date_of (gm to))).
  destruct (G from ltac:(lia)) as [D1 E1]. destruct (G to T) as [D2 E2]. split.
  - unfold validity_enc. rewrite (time_enc_ok gm from to _ _ from G); [|lia|reflexivity|reflexivity].
    unfold not_before_enc. cbn [g_time]. rewrite Z.eqb_refl. cbn [negb fst snd]. change (0 <? 0) with false. cbn iota.
    rewrite (time_enc_ok gm from to _ _ to G T); [|reflexivity|cbn [g_time]; destruct (Z.eqb_spec from 0); [lia|reflexivity]].
    unfold not_after_enc. cbn [g_time]. rewrite Z.eqb_refl. reflexivity.
  - rewrite !C86_decode by auto. rewrite E1, E2. auto.
Qed.
Print Assumptions C87_roundtrip_partial.

(** "Every pair of times can be written" is false: with a notBefore at the
    epoch (valid_from = 0, which also means "not set yet" inside) and any later
    notAfter the generator fails. *)
Theorem C87_roundtrip_refuted : forall gm, is_gmtime gm -> exists from to,
  0 <= from <= to /\ to < 253402300800 /\ fst (fst (validity_enc gm from to)) = EFAULT.
Proof.
  intros gm G. exists 0, 86400. split; [lia|]. split; [lia|].
  unfold validity_enc. rewrite (time_enc_ok gm 0 86400 _ _ 0 G); [|lia|reflexivity|reflexivity].
  unfold not_before_enc. cbn [g_time]. rewrite Z.eqb_refl. cbn [negb fst snd]. change (0 <? 0) with false. cbn iota.
  rewrite (time_enc_ok gm 0 86400 _ _ 0 G); [|lia|reflexivity|reflexivity].
  unfold not_after_enc. cbn [g_time fst snd]. reflexivity.
Qed.
Print Assumptions C87_roundtrip_refuted.

(** A gmtime in the sense above exists, so the hypotheses are not empty. *)
Fixpoint gm_years (fuel : nat) (y days : Z) : Z * Z :=
  match fuel with
  | O => (y, days)
  | S f => if days <? days_in_year y then (y, days) else gm_years f (y + 1) (days - days_in_year y)
  end.
Fixpoint gm_months (fuel : nat) (y m days : Z) : Z * Z :=
  match fuel with
  | O => (m, days)
  | S f => if days <? days_in_month y m then (m, days) else gm_months f y (m + 1) (days - days_in_month y m)
  end.
Definition gm (t : Z) : tm :=
  let '(y, d) := gm_years (Z.to_nat 8030) 1970 (t / 86400) in
  let '(m, d) := gm_months 12 y 1 d in
  {| tm_year := y - 1900; tm_mon := m - 1; tm_mday := d + 1; tm_hour := t mod 86400 / 3600;
     tm_min := t mod 3600 / 60; tm_sec := t mod 60 |}.
Lemma gm_years_ok : forall fuel n days, 0 <= days -> days_of_years n + days < days_of_years (n + fuel) ->
  exists k d, gm_years fuel (1970 + Z.of_nat n) days = (1970 + Z.of_nat k, d) /\ 0 <= d < days_in_year (1970 + Z.of_nat k) /\
    (k < n + fuel)%nat /\ days_of_years k + d = days_of_years n + days.
Proof.
  induction fuel as [|f IH]; intros n days D L; cbn [gm_years].
  - rewrite Nat.add_0_r in L. lia.
  - destruct (Z.ltb_spec days (days_in_year (1970 + Z.of_nat n))) as [A|A].
    + exists n, days. split; [reflexivity|]. split; [lia|]. split; [lia|reflexivity].
    + destruct (IH (S n) (days - days_in_year (1970 + Z.of_nat n))) as (k&d&E&B&C&S).
      * lia.
      * cbn [days_of_years]. replace (S n + f)%nat with (n + S f)%nat by lia. lia.
      * replace (1970 + Z.of_nat n + 1) with (1970 + Z.of_nat (Datatypes.S n)) by lia. exists k, d. split; [exact E|]. split; [exact B|].
        split; [lia|]. cbn [days_of_years] in S. lia.
Qed.
Lemma gm_months_ok : forall y fuel n days, 0 <= days -> days_of_months y n + days < days_of_months y (n + fuel) ->
  exists k d, gm_months fuel y (Z.of_nat n + 1) days = (Z.of_nat k + 1, d) /\ 0 <= d < days_in_month y (Z.of_nat k + 1) /\
    (k < n + fuel)%nat /\ days_of_months y k + d = days_of_months y n + days.
Proof.
  intros y. induction fuel as [|f IH]; intros n days D L; cbn [gm_months].
  - rewrite Nat.add_0_r in L. lia.
  - destruct (Z.ltb_spec days (days_in_month y (Z.of_nat n + 1))) as [A|A].
    + exists n, days. split; [reflexivity|]. split; [lia|]. split; [lia|reflexivity].
    + destruct (IH (S n) (days - days_in_month y (Z.of_nat n + 1))) as (k&d&E&B&C&S).
      * lia.
      * cbn [days_of_months]. replace (S n + f)%nat with (n + S f)%nat by lia. lia.
      * replace (Z.of_nat n + 1 + 1) with (Z.of_nat (Datatypes.S n) + 1) by lia. exists k, d. split; [exact E|]. split; [exact B|].
        split; [lia|]. cbn [days_of_months] in S. lia.
Qed.
Lemma gm_ok : is_gmtime gm.
Proof.
  intros t T. unfold gm.
  assert (ND : 0 <= t / 86400 < 2932897) by (split; [apply Z.div_pos; lia|apply Z.div_lt_upper_bound; lia]).
  destruct (gm_years_ok (Z.to_nat 8030) 0 (t / 86400)) as (k&d&E&B&C&S).
  { lia. }
  { cbn [Nat.add]. rewrite (days_of_years_F (Z.to_nat 8030)). rewrite Z2Nat.id by lia. change (F (1969 + 8030)) with 3652059. cbn [days_of_years]. lia. }
  change (1970 + Z.of_nat 0) with 1970 in E. rewrite E.
  destruct (gm_months_ok (1970 + Z.of_nat k) 12 0 d) as (k'&d'&E'&B'&C'&S').
  { lia. }
  { cbn [Nat.add]. assert (days_of_months (1970 + Z.of_nat k) 12 = days_in_year (1970 + Z.of_nat k)) as ->.
    { unfold days_in_year. cbn [days_of_months]. unfold days_in_month. cbn [Z.of_nat Pos.of_succ_nat Pos.succ Z.add Z.eqb Pos.eqb orb Pos.add].
      destruct (leap _); reflexivity. }
    cbn [days_of_months]. lia. }
  change (Z.of_nat 0 + 1) with 1 in E'. rewrite E'. cbn [days_of_months days_of_years] in S, S'.
  pose proof (Z.mod_pos_bound t 86400 ltac:(lia)) as M1. pose proof (Z.mod_pos_bound t 3600 ltac:(lia)) as M2.
  pose proof (Z.mod_pos_bound t 60 ltac:(lia)) as M3.
  pose proof (Z.div_mod t 86400 ltac:(lia)) as Q1.
  assert (H1 : 0 <= t mod 86400 / 3600 < 24) by (split; [apply Z.div_pos; lia|apply Z.div_lt_upper_bound; lia]).
  assert (H2 : 0 <= t mod 3600 / 60 < 60) by (split; [apply Z.div_pos; lia|apply Z.div_lt_upper_bound; lia]).
  assert (R1 : t mod 86400 = 3600 * (t mod 86400 / 3600) + t mod 3600).
  { rewrite (Z.div_mod (t mod 86400) 3600) at 1 by lia. f_equal. replace 86400 with (3600 * 24) by lia. rewrite Z.rem_mul_r by lia.
    rewrite Z.mul_comm, Z_mod_plus_full. apply Z.mod_mod. lia. }
  assert (R2 : t mod 3600 = 60 * (t mod 3600 / 60) + t mod 60).
  { rewrite (Z.div_mod (t mod 3600) 60) at 1 by lia. f_equal. replace 3600 with (60 * 60) by lia. rewrite Z.rem_mul_r by lia.
    rewrite Z.mul_comm, Z_mod_plus_full. apply Z.mod_mod. lia. }
  split.
  - unfold real_date, real_day, date_of. cbn [d_y d_m d_d d_h d_mi d_s tm_year tm_mon tm_mday tm_hour tm_min tm_sec].
    replace (1970 + Z.of_nat k - 1900 + 1900) with (1970 + Z.of_nat k) by lia. replace (Z.of_nat k' + 1 - 1 + 1) with (Z.of_nat k' + 1) by lia.
    lia.
  - unfold epoch_seconds, day_number, date_of. cbn [d_y d_m d_d d_h d_mi d_s tm_year tm_mon tm_mday tm_hour tm_min tm_sec].
    replace (Z.to_nat (1970 + Z.of_nat k - 1900 + 1900 - 1970)) with k by lia. replace (Z.to_nat (Z.of_nat k' + 1 - 1 + 1 - 1)) with k' by lia.
    replace (1970 + Z.of_nat k - 1900 + 1900) with (1970 + Z.of_nat k) by lia. lia.
Qed.
Example C87_roundtrip_partial_ex : is_gmtime gm /\ validity_enc gm 1709251199 2524608000 =
  (0, [(23, [50; 52; 48; 50; 50; 57; 50; 51; 53; 57; 53; 57; 90])], [(24, [50; 48; 53; 48; 48; 49; 48; 49; 48; 48; 48; 48; 48; 48; 90])]).
Proof. split; [exact gm_ok|]. vm_compute. reflexivity. Qed.

(** ** C85: policies *)
Definition bit (v : Z) (i : Z) : Prop := Z.testbit v i = true.
Lemma flag_bit : forall v i, 0 <= i -> flag v (2 ^ i) = Z.testbit v i.
Proof.
  intros v i I. unfold flag. destruct (Z.eqb_spec (Z.land v (2 ^ i)) 0) as [E|E]; cbn [negb].
  - apply (f_equal (fun z => Z.testbit z i)) in E. rewrite Z.land_spec, Z.pow2_bits_true, Z.bits_0, andb_true_r in E by lia. auto.
  - symmetry. destruct (Z.testbit v i) eqn:T; [reflexivity|]. exfalso. apply E. apply Z.bits_inj'. intros n N.
    rewrite Z.land_spec, Z.pow2_bits_eqb, Z.bits_0 by lia. destruct (Z.eqb_spec i n) as [<-|]; [rewrite T; reflexivity|apply andb_false_r].
Qed.
(** What a CA certificate is, in terms of its fields: subject key identifier,
    a subject or alternative name, keyCertSign where key usage is given, cA
    asserted and marked critical, version 3 at least, signed. *)
Definition ca_certificate (c : cert) : Prop :=
  opt_bytes (c_raw_skid c) <> [] /\
  (c_raw_subject c <> None \/ c_san_dns c <> None \/ c_san_ip c <> None) /\
  (bit (pk_usage (c_pub c)) 13 -> bit (pk_usage (c_pub c)) 2) /\
  Z.land (pk_pathlen (c_pub c)) 31 <> 0 /\ bit (pk_pathlen (c_pub c)) 7 /\
  3 <= c_version c /\ opt_bytes (s_s (c_sig c)) <> [].
Theorem C85_is_ca : forall c,
  (is_ca (Some c) = POL_TRUE <-> ca_certificate c) /\ (is_ca (Some c) = POL_TRUE \/ is_ca (Some c) = POL_FALSE).
Proof.
  intros c. unfold is_ca, cert_valid, version_ge, contains_signature, ca_certificate, bit.
  change KU_PRESENT with (2 ^ 13). change KU_KEYCERTSIGN with (2 ^ 2). change CA_CRITICAL with (2 ^ 7). rewrite !flag_bit by lia.
  destruct (opt_bytes (c_raw_skid c)) as [|k0 k] eqn:EK; cbn [length Nat.eqb].
  { change (pol_and POL_FALSE _) with POL_FALSE. split; [|right; reflexivity]. split; [discriminate|]. intros (X&_). contradiction. }
  assert (S : (exists P, match c_raw_subject c, c_san_dns c, c_san_ip c with None, None, None => POL_FALSE | _, _, _ => POL_TRUE end = P /\
     ((P = POL_TRUE /\ (c_raw_subject c <> None \/ c_san_dns c <> None \/ c_san_ip c <> None)) \/
      (P = POL_FALSE /\ ~ (c_raw_subject c <> None \/ c_san_dns c <> None \/ c_san_ip c <> None))))).
  { destruct (c_raw_subject c), (c_san_dns c), (c_san_ip c); eexists; (split; [reflexivity|]);
      try (left; split; [reflexivity|]; (left; discriminate) || (right; left; discriminate) || (right; right; discriminate)).
    right. split; [reflexivity|]. intros [X|[X|X]]; apply X; reflexivity. }
  destruct S as (P&->&[[-> S]|[-> S]]).
  2:{ change (pol_and POL_FALSE _) with POL_FALSE. split; [|right; reflexivity]. split; [discriminate|]. intros (_&X&_). contradiction. }
  match goal with |- context [pol_and POL_TRUE ?x] => change (pol_and POL_TRUE x) with x end.
  destruct (Z.testbit (pk_usage (c_pub c)) 13) eqn:B1, (Z.testbit (pk_usage (c_pub c)) 2) eqn:B2; cbn [andb negb].
  2:{ split; [|right; reflexivity]. split; [discriminate|]. intros (_&_&X&_). specialize (X eq_refl). discriminate. }
  all: unfold flag; change CA_MASK with 31; destruct (Z.eqb_spec (Z.land (pk_pathlen (c_pub c)) 31) 0) as [C0|C0]; cbn [negb andb].
  all: try (split; [|destruct (3 <=? c_version c); [destruct (s_s (c_sig c)) as [[|? ?]|]|]; right; reflexivity];
            split; [destruct (3 <=? c_version c); [destruct (s_s (c_sig c)) as [[|? ?]|]|]; discriminate|]; intros (_&_&_&X&_); contradiction).
  all: destruct (Z.testbit (pk_pathlen (c_pub c)) 7) eqn:B7; cbn [negb].
  all: try (split; [|right; reflexivity]; split; [discriminate|]; intros (_&_&_&_&X&_); discriminate).
  all: destruct (Z.leb_spec 3 (c_version c)) as [V|V].
  all: try (split; [|right; reflexivity]; split; [discriminate|]; intros (_&_&_&_&_&X&_); lia).
  all: destruct (s_s (c_sig c)) as [[|? ?]|] eqn:SS; cbn [opt_bytes].
  all: try (split; [|right; reflexivity]; split; [discriminate|]; intros (_&_&_&_&_&_&X); contradiction).
  all: split; [|left; reflexivity]; split; [intros _|reflexivity].
  all: repeat (split; [solve [discriminate | exact S | auto | intros X; discriminate X]|]); discriminate.
Qed.
Print Assumptions C85_is_ca.
Definition ex_cert : cert :=
  {| c_pub := {| pk_key := [1]; pk_algo := 1; pk_usage := 8196; pk_eku := 0; pk_pathlen := 144 |};
     c_sig := {| s_s := Some [1]; s_digest := []; s_hash := None; s_algo := 1; s_raw := None; s_auth0 := kid0; s_auth1 := kid0 |};
     c_id := kid0; c_skid := kid0; c_from := 0; c_to := 0; c_raw_issuer := Some [1]; c_raw_subject := Some [1];
     c_san_dns := None; c_san_ip := None; c_raw_skid := Some [4]; c_raw_akid := Some [4]; c_version := 3;
     c_self_signed := true; c_unsupported := false |}.
Example C85_is_ca_ex : ca_certificate ex_cert /\ is_ca (Some ex_cert) = POL_TRUE.
Proof.
  split; [|reflexivity]. unfold ca_certificate, bit, ex_cert. cbn. repeat split; try discriminate. left. discriminate.
Qed.
(** A root CA is a CA certificate found to be signed with its own key whose
    authority key identifier, when present, is its subject key identifier. *)
Theorem C85_is_root_ca : forall c, bytes (opt_bytes (c_raw_akid c)) -> bytes (opt_bytes (c_raw_skid c)) ->
  (is_root_ca (Some c) = POL_TRUE <->
   ca_certificate c /\ c_self_signed c = true /\ (forall a, c_raw_akid c = Some a -> c_raw_skid c = Some a)).
Proof.
  intros c BA BS. pose proof (C85_is_ca c) as [CA _]. unfold is_root_ca.
  assert (REST : pol_and (is_ca (Some c)) (is_selfsigned (Some c)) = POL_TRUE <-> ca_certificate c /\ c_self_signed c = true).
  { rewrite <- CA. unfold pol_and, is_selfsigned. destruct (Z.eqb_spec (is_ca (Some c)) POL_TRUE) as [E|E].
    - rewrite E. destruct (c_self_signed c); split; intros X; try tauto; try discriminate. destruct X. discriminate.
    - split; [intros X; contradiction|intros [X _]; contradiction]. }
  destruct (c_raw_akid c) as [a|] eqn:EA.
  - cbn [opt_bytes] in BA. unfold match_akid. destruct (c_raw_skid c) as [k|] eqn:EK.
    + assert (NN : is_ca (Some c) <? 0 = false).
      { destruct (proj2 (C85_is_ca c)) as [->| ->]; reflexivity. }
      rewrite NN, EA. cbn [opt_bytes] in BS.
      destruct (cmp_eq a k) eqn:CE.
      * change (pol_and POL_TRUE ?x) with x. rewrite REST.
        assert (a = k).
        { unfold cmp_eq in CE. apply Z.eqb_eq in CE. apply (UtilProof.memcmp_spec 0 a 0 k BA BS) in CE. exact CE. }
        subst k. split; [intros [X Y]; split; [exact X|split; [exact Y|intros ? [= <-]; reflexivity]]|tauto].
      * change (pol_and POL_FALSE ?x) with POL_FALSE. split; [discriminate|]. intros (_&_&X). specialize (X a eq_refl). injection X as <-.
        exfalso. unfold cmp_eq in CE. apply Z.eqb_neq in CE. apply CE. apply (UtilProof.memcmp_spec 0 k 0 k BA BS). reflexivity.
    + change (pol_and POL_FALSE ?x) with POL_FALSE. split; [discriminate|]. intros (_&_&X). specialize (X a eq_refl). discriminate.
  - rewrite REST. split; [intros [X Y]; split; [exact X|split; [exact Y|discriminate]]|tauto].
Qed.
Print Assumptions C85_is_root_ca.
Example C85_is_root_ca_ex : is_root_ca (Some ex_cert) = POL_TRUE.
Proof. reflexivity. Qed.
(** Key usage: all requested bits are there - and the extension is present,
    unless nothing is requested. *)
Theorem C85_key_usage : forall c req, 0 <= req < 65536 -> Z.testbit req 13 = false ->
  (match_key_usage (Some c) req = POL_TRUE <->
   req = 0 \/ (bit (pk_usage (c_pub c)) 13 /\ forall i, 0 <= i -> bit req i -> bit (pk_usage (c_pub c)) i)).
Proof.
  intros c req R R13. unfold match_key_usage. destruct (Z.eqb_spec req 0) as [->|N]; [split; auto|].
  change KU_PRESENT with (2 ^ 13). rewrite flag_bit by lia. unfold bit.
  destruct (Z.testbit (pk_usage (c_pub c)) 13) eqn:P; cbn [negb].
  2:{ split; [discriminate|]. intros [X|[X _]]; [contradiction|discriminate]. }
  set (u := pk_usage (c_pub c)) in *. change (65535 - 2 ^ 13) with 57343.
  destruct (Z.eqb_spec (Z.land (Z.land u 57343) req) req) as [E|E].
  - split; [intros _|reflexivity]. right. split; [reflexivity|]. intros i I B.
    rewrite <- E in B. rewrite !Z.land_spec in B. apply andb_prop in B. destruct B as [B _]. apply andb_prop in B. tauto.
  - split; [discriminate|]. intros [X|[_ X]]; [contradiction|]. exfalso. apply E. apply Z.bits_inj'. intros i I. rewrite !Z.land_spec.
    destruct (Z.testbit req i) eqn:T; [|apply andb_false_r]. rewrite (X i I T). rewrite andb_true_r. cbn [andb].
    destruct (Z.ltb_spec i 16) as [L|L].
    + assert (V : forall k, 0 <= k < 16 -> k <> 13 -> Z.testbit 57343 k = true).
      { intros k K K13. assert (Q : forallb (fun k => (k =? 13) || Z.testbit 57343 k) (map Z.of_nat (seq 0 16)) = true) by (vm_compute; reflexivity).
        rewrite forallb_forall in Q. specialize (Q k). rewrite in_map_iff in Q.
        destruct (Z.eqb_spec k 13); [contradiction|]. cbn [orb] in Q. apply Q. exists (Z.to_nat k). split; [lia|]. apply in_seq. lia. }
      apply V; [lia|]. intros ->. congruence.
    + exfalso. assert (Z.testbit req i = false); [|congruence]. destruct (Z.eq_dec req 0); [contradiction|].
      apply Z.bits_above_log2; [lia|]. assert (Z.log2 req < 16) by (apply Z.log2_lt_pow2; lia). lia.
Qed.
Print Assumptions C85_key_usage.
Example C85_key_usage_ex : match_key_usage (Some ex_cert) 4 = POL_TRUE /\ match_key_usage (Some ex_cert) 6 = POL_FALSE.
Proof. split; reflexivity. Qed.
(** Validity: a bound of 0 counts as no bound. *)
Theorem C85_time_partial : forall c now, 0 <= now ->
  (time_valid (Some c) now = POL_TRUE <->
   0 <= c_from c /\ 0 <= c_to c /\ c_from c <= now /\ (c_to c = 0 \/ now <= c_to c)).
Proof.
  intros c now N. unfold time_valid. destruct (Z.ltb_spec now 0); [lia|].
  destruct (Z.ltb_spec (c_from c) 0), (Z.ltb_spec (c_to c) 0); cbn [orb]; try (split; [discriminate|lia]).
  destruct (Z.eqb_spec (c_from c) 0), (Z.eqb_spec (c_to c) 0), (Z.ltb_spec now (c_from c)), (Z.ltb_spec (c_to c) now);
    cbn [negb andb]; (split; [try discriminate; intros _; lia|intros; try reflexivity; lia]).
Qed.
Print Assumptions C85_time_partial.
Definition with_times (f t : Z) : cert :=
  {| c_pub := c_pub ex_cert; c_sig := c_sig ex_cert; c_id := kid0; c_skid := kid0; c_from := f; c_to := t;
     c_raw_issuer := Some [1]; c_raw_subject := Some [1]; c_san_dns := None; c_san_ip := None; c_raw_skid := Some [4];
     c_raw_akid := Some [4]; c_version := 3; c_self_signed := true; c_unsupported := false |}.
Example C85_time_partial_ex : time_valid (Some (with_times 10 20)) 15 = POL_TRUE /\ time_valid (Some (with_times 10 20)) 21 = POL_FALSE.
Proof. split; reflexivity. Qed.
(** "A certificate is valid only up to its notAfter" is false: a notAfter of
    1970-01-01 00:00:00Z, the oldest the parser takes, never expires. *)
Theorem C85_time_refuted : exists v,
  decode_time 23 v = (0, Some 0) /\ forall now, 0 <= now -> time_valid (Some (with_times 0 0)) now = POL_TRUE.
Proof.
  exists [55; 48; 48; 49; 48; 49; 48; 48; 48; 48; 48; 48; 90]. split; [vm_compute; reflexivity|].
  intros now N. apply C85_time_partial; [exact N|]. cbn. lia.
Qed.
Print Assumptions C85_time_refuted.

(** ** C88: decoding of extensions *)
Definition x0 : xctx := {| x_crit := false; x_pub := {| pk_key := []; pk_algo := 0; pk_usage := 0; pk_eku := 0; pk_pathlen := 0 |} |}.
Definition ku_bits (crit : option (list Z)) (v : list Z) : ext := {| e_crit := crit; e_body := Ext_usage v |}.
(** A BIT STRING of up to eight key usage bits (RFC 5280: bit i is the i-th
    from the left) sets exactly the flags of these bits. *)
Theorem C88_keyusage : forall x u b, 0 <= u <= 7 -> 0 <= b < 256 ->
  let r := keyusage x [u; b] in
  let w := pk_usage (x_pub (snd r)) in
  fst r = 0 /\ (forall i, 0 <= i < 8 -> Z.testbit w i = Z.testbit b i) /\ Z.testbit w 13 = true /\
  Z.testbit w 14 = x_crit x /\ Z.testbit w 15 = false.
Proof.
  intros x u b U B r w. split; [reflexivity|].
  assert (E : w = Z.lor (Z.lor (Z.lor b (Z.shiftl u 8)) (if x_crit x then KU_CRITICAL else 0)) KU_PRESENT).
  { unfold w, r, keyusage, keyusage_on. cbn [length Nat.ltb Nat.leb Nat.eqb orb nth snd x_pub set_usage pk_usage].
    do 2 f_equal. unfold bswap16. rewrite (Z.shiftl_mul_pow2 b 8) by lia. rewrite (Z.mod_small (b * 2 ^ 8)) by lia.
    apply Z.bits_inj'. intros i I. rewrite !Z.lor_spec, Z.shiftr_spec, Z.lor_spec, Z.shiftl_spec by lia.
    assert (UH : forall j, 8 <= j -> Z.testbit u j = false).
    { intros j J. destruct (Z.eq_dec u 0) as [->|]; [apply Z.bits_0|]. apply Z.bits_above_log2; [lia|].
      assert (Z.log2 u < 8) by (apply Z.log2_lt_pow2; lia). lia. }
    assert (BH : forall j, 8 <= j -> Z.testbit b j = false).
    { intros j J. destruct (Z.eq_dec b 0) as [->|]; [apply Z.bits_0|]. apply Z.bits_above_log2; [lia|].
      assert (Z.log2 b < 8) by (apply Z.log2_lt_pow2; lia). lia. }
    rewrite (UH (i + 8)) by lia. cbn [orb]. rewrite <- (Z.shiftl_mul_pow2 b 8) by lia.
    rewrite (Z.shiftl_spec b 8 (i + 8)) by lia. replace (i + 8 - 8) with i by lia. f_equal.
    change 65536 with (2 ^ 16).
    destruct (Z.ltb_spec i 16) as [L|L].
    - rewrite Z.mod_pow2_bits_low by lia. rewrite Z.shiftl_spec by lia. destruct (Z.ltb_spec i 8).
      + rewrite !Z.testbit_neg_r by lia. reflexivity.
      + rewrite Z.lor_spec, Z.shiftl_spec by lia. rewrite (Z.testbit_neg_r b (i - 8 - 8)) by lia. apply orb_false_r.
    - rewrite Z.mod_pow2_bits_high by lia. symmetry. apply UH. lia. }
  rewrite E. clear E w r.
  assert (UH : forall j, 3 <= j -> Z.testbit u j = false).
  { intros j J. destruct (Z.eq_dec u 0) as [->|]; [apply Z.bits_0|]. apply Z.bits_above_log2; [lia|].
    assert (Z.log2 u < 3) by (apply Z.log2_lt_pow2; lia). lia. }
  assert (BH : forall j, 8 <= j -> Z.testbit b j = false).
  { intros j J. destruct (Z.eq_dec b 0) as [->|]; [apply Z.bits_0|]. apply Z.bits_above_log2; [lia|].
    assert (Z.log2 b < 8) by (apply Z.log2_lt_pow2; lia). lia. }
  assert (CR : forall j, 0 <= j -> Z.testbit (if x_crit x then KU_CRITICAL else 0) j = x_crit x && (j =? 14)).
  { intros j J. destruct (x_crit x); [|apply Z.bits_0]. change KU_CRITICAL with (2 ^ 14). rewrite Z.pow2_bits_eqb by lia. cbn [andb].
    apply Z.eqb_sym. }
  assert (PR : forall j, 0 <= j -> Z.testbit KU_PRESENT j = (j =? 13)).
  { intros j J. change KU_PRESENT with (2 ^ 13). rewrite Z.pow2_bits_eqb by lia. apply Z.eqb_sym. }
  split; [|split; [|split]].
  - intros i I. rewrite !Z.lor_spec, Z.shiftl_spec, CR, PR by lia. rewrite (Z.testbit_neg_r u) by lia.
    destruct (Z.eqb_spec i 14); [lia|]. destruct (Z.eqb_spec i 13); [lia|]. rewrite andb_false_r, !orb_false_r. reflexivity.
  - rewrite !Z.lor_spec, PR by lia. apply orb_true_r.
  - rewrite !Z.lor_spec, Z.shiftl_spec, CR, PR by lia. rewrite BH, UH by lia. cbn. rewrite andb_true_r, orb_false_r. reflexivity.
  - rewrite !Z.lor_spec, Z.shiftl_spec, CR, PR by lia. rewrite BH, UH by lia. cbn. rewrite andb_false_r. reflexivity.
Qed.
Print Assumptions C88_keyusage.
Example C88_keyusage_ex : pk_usage (x_pub (snd (process_exts x0 [ku_bits None [1; 6]]))) = 8192 + 256 + 6.
Proof. reflexivity. Qed.
(** No certificate counts as CA (flag with criticality) unless one of its
    basicConstraints extensions asserts cA. *)
Definition pathlen_byte (e : ext) : Prop :=
  match e_body e with Ext_basic _ (Some l) => bytes l | _ => True end.
Theorem C88_ca_flag : forall l x', Forall pathlen_byte l -> process_exts x0 l = (0, x') -> bit (pk_pathlen (x_pub x')) 7 ->
  exists e pl, In e l /\ e_body e = Ext_basic (Some [255]) pl.
Proof.
  assert (ST : forall e x rc0 x', pathlen_byte e -> process_ext x e = (rc0, x') -> 0 <= rc0 -> Z.testbit (pk_pathlen (x_pub x)) 7 = false ->
            Z.testbit (pk_pathlen (x_pub x')) 7 = true -> exists pl, e_body e = Ext_basic (Some [255]) pl).
  { intros e x rc0 x' PB E R0 F T. unfold process_ext in E.
    destruct (opt_step extension_critical x (e_crit e)) as [rc x1] eqn:E1.
    assert (P1 : x_pub x1 = x_pub x).
    { unfold opt_step, extension_critical in E1. destruct (e_crit e) as [[|b [|? ?]]|]; injection E1 as _ <-; reflexivity. }
    unfold then_ in E. destruct (Z.ltb_spec rc 0) as [RC|RC].
    { injection E as E _. lia. }
    unfold pathlen_byte in PB. destruct (e_body e) as [ca pl|v|l|]; cbn [process_body] in E.
    - unfold then_ in E. destruct (opt_step basic_constraints_ca x1 ca) as [rc2 x2] eqn:E2.
      destruct (Z.ltb_spec rc2 0) as [RC2|RC2]; [injection E as E _; lia|].
      assert (P2 : Z.testbit (pk_pathlen (x_pub x2)) 7 = true).
      { unfold opt_step, basic_constraints_pathlen in E. destruct pl as [[|b [|? ?]]|].
        - injection E as _ <-. exact T.
        - destruct (b =? 0); [injection E as _ <-; exact T|]. injection E as _ <-. cbn [x_pub set_pathlen pk_pathlen] in T.
          rewrite Z.lor_spec, Z.land_spec in T. change (Z.testbit (255 - CA_MAXLEN) 7) with true in T. rewrite andb_true_r in T.
          destruct (Z.testbit (pk_pathlen (x_pub x2)) 7); [reflexivity|]. cbn [orb] in T. unfold CA_MAXLEN in T.
          inversion PB as [|? ? BB _]; subst. red in BB.
          rewrite Z.bits_above_log2 in T; [discriminate|lia|]. assert (L : Z.log2 (Z.min 16 b) <= Z.log2 16) by (apply Z.log2_le_mono; lia).
          change (Z.log2 16) with 4 in L. lia.
        - injection E as _ <-. exact T.
        - injection E as _ <-. exact T. }
      unfold opt_step, basic_constraints_ca in E2. destruct ca as [[|b [|? ?]]|]; try (injection E2 as _ <-; rewrite P1 in P2; congruence).
      injection E2 as _ <-. cbn [x_pub set_pathlen pk_pathlen] in P2. destruct (Z.eqb_spec b 255) as [->|]; [eauto|]. rewrite Z.bits_0 in P2. discriminate.
    - unfold keyusage, keyusage_on in E. destruct (_ || _) in E; [injection E as _ <-; congruence|]. injection E as _ <-.
      cbn [x_pub set_usage pk_pathlen] in T. congruence.
    - exfalso. assert (K : forall l r, pk_pathlen (x_pub (snd (fold_left (fun r e => then_ r (fun x => eku_handler x e)) l r))) = pk_pathlen (x_pub (snd r))).
      { clear. induction l as [|a l IH]; intros r; [reflexivity|]. cbn [fold_left]. rewrite IH.
        destruct r as [rc x]. unfold then_. destruct (rc <? 0); [reflexivity|]. unfold eku_handler. destruct a; reflexivity. }
      specialize (K l (0, x1)). rewrite E in K. cbn [snd] in K. congruence.
    - injection E as _ <-. congruence. }
  assert (G : forall l r x', Forall pathlen_byte l -> fold_left (fun r e => then_ r (fun x => process_ext x e)) l r = (0, x') ->
      Z.testbit (pk_pathlen (x_pub (snd r))) 7 = false -> Z.testbit (pk_pathlen (x_pub x')) 7 = true ->
      exists e pl, In e l /\ e_body e = Ext_basic (Some [255]) pl).
  { assert (K : forall rc x, rc < 0 -> forall l, fst (fold_left (fun r e => then_ r (fun x => process_ext x e)) l (rc, x)) = rc).
    { clear. intros rc x RC. induction l as [|a l IH]; [reflexivity|]. cbn [fold_left]. unfold then_ at 2. destruct (Z.ltb_spec rc 0); [exact IH|lia]. }
    induction l as [|e l IH]; intros r x' PB E F T.
    - cbn in E. subst r. cbn [snd] in F. congruence.
    - inversion PB as [|? ? PB1 PB2]; subst. cbn [fold_left] in E. destruct r as [rc x]. cbn [snd] in F. unfold then_ in E at 2.
      destruct (Z.ltb_spec rc 0) as [RC|RC].
      + exfalso. specialize (K rc x RC l). rewrite E in K. cbn in K. lia.
      + destruct (process_ext x e) as [rc2 x2] eqn:PE. destruct (Z.ltb_spec rc2 0) as [RC2|RC2].
        * exfalso. specialize (K rc2 x2 RC2 l). rewrite E in K. cbn in K. lia.
        * destruct (Z.testbit (pk_pathlen (x_pub x2)) 7) eqn:T2.
          -- destruct (ST _ _ _ _ PB1 PE RC2 F T2) as (pl&X). exists e, pl. split; [left; reflexivity|exact X].
          -- destruct (IH _ _ PB2 E T2 T) as (e'&pl&I&X). exists e', pl. split; [right; exact I|exact X]. }
  intros l x' PB E T. unfold process_exts in E. eapply G; eauto.
Qed.
Print Assumptions C88_ca_flag.
Definition basic (crit : option (list Z)) (ca pl : option (list Z)) : ext := {| e_crit := crit; e_body := Ext_basic ca pl |}.
Example C88_ca_flag_ex : exists x', process_exts x0 [ku_bits None [1; 6]; basic (Some [255]) (Some [255]) (Some [3])] = (0, x') /\
  pk_pathlen (x_pub x') = 128 + 3.
Proof. eexists. split; reflexivity. Qed.
(** "A path length constraint that was decoded is remembered" is false for 0,
    the value of a CA that may issue end-entity certificates only: the result
    is that of a CA without a constraint. *)
Theorem C88_pathlen_partial : forall crit p, 1 <= p < 256 -> crit = None \/ (exists c, crit = Some [c]) ->
  exists x', process_exts x0 [basic crit (Some [255]) (Some [p])] = (0, x') /\ pk_pathlen (x_pub x') = 128 + Z.min 16 p.
Proof.
  intros crit p P CR. destruct CR as [->|[c ->]].
  all: eexists; cbn [process_exts fold_left then_ basic process_ext e_crit e_body opt_step extension_critical process_body
      basic_constraints_ca basic_constraints_pathlen]; change (0 <? 0) with false; cbn iota; change (255 =? 255) with true; cbn iota;
      (destruct (Z.eqb_spec p 0); [lia|]); (split; [reflexivity|]); cbn [x_pub set_pathlen pk_pathlen].
  all: change (Z.land (Z.lor CA_MAXLEN CA_CRITICAL) (255 - CA_MAXLEN)) with 128; unfold CA_MAXLEN.
  all: rewrite Z.add_nocarry_lxor, <- Z.lxor_lor by
       (apply Z.bits_inj'; intros i I; rewrite Z.land_spec, Z.bits_0; change 128 with (2 ^ 7); rewrite Z.pow2_bits_eqb by lia;
        destruct (Z.eqb_spec 7 i) as [<-|]; [cbn [andb]|reflexivity]; apply Z.bits_above_log2; [lia|];
        assert (L : Z.log2 (Z.min 16 p) <= Z.log2 16) by (apply Z.log2_le_mono; lia); change (Z.log2 16) with 4 in L; lia); reflexivity.
Qed.
Print Assumptions C88_pathlen_partial.
Theorem C88_pathlen_refuted :
  process_exts x0 [basic (Some [255]) (Some [255]) (Some [0])] = process_exts x0 [basic (Some [255]) (Some [255]) None] /\
  pk_pathlen (x_pub (snd (process_exts x0 [basic (Some [255]) (Some [255]) (Some [0])]))) = 128 + 16.
Proof. split; reflexivity. Qed.
Print Assumptions C88_pathlen_refuted.
(** "The criticality flags say which extensions were marked critical" is
    false both ways of getting there: basicConstraints counts as critical as
    soon as cA is asserted, and an extension without the (default) BOOLEAN
    inherits the criticality of the one before. *)
Theorem C88_critical_refuted :
  (exists x', process_exts x0 [basic None (Some [255]) None] = (0, x') /\ Z.testbit (pk_pathlen (x_pub x')) 7 = true) /\
  (exists x', process_exts x0 [{| e_crit := Some [255]; e_body := Ext_other |}; ku_bits None [1; 6]] = (0, x') /\
     Z.testbit (pk_usage (x_pub x')) 14 = true) /\
  (exists x', process_exts x0 [basic (Some [255]) (Some [0]) None; ku_bits None [1; 6]] = (0, x') /\
     Z.testbit (pk_usage (x_pub x')) 14 = false).
Proof. split; [eexists; split; reflexivity|]. split; eexists; split; reflexivity. Qed.
Print Assumptions C88_critical_refuted.
(** "Every key usage of RFC 5280 can be decoded" is false: decipherOnly, the
    ninth bit, makes the BIT STRING three bytes long and is refused. *)
Theorem C88_decipher_only_refuted : fst (process_exts x0 [ku_bits None [7; 136; 128]]) = EBADMSG.
Proof. reflexivity. Qed.
Print Assumptions C88_decipher_only_refuted.
(** "The result does not depend on the host" is false: on a big-endian host
    keyCertSign and cRLSign end up in other bits. *)
Theorem C88_host_refuted : exists x1 x2,
  keyusage_on false x0 [1; 6] = (0, x1) /\ keyusage_on true x0 [1; 6] = (0, x2) /\
  Z.testbit (pk_usage (x_pub x1)) 2 = true /\ Z.testbit (pk_usage (x_pub x2)) 2 = false.
Proof. eexists. eexists. split; [reflexivity|]. split; [reflexivity|]. split; reflexivity. Qed.
Print Assumptions C88_host_refuted.

(** ** C89: displayed names *)
Lemma slice_z_length : forall data off len, 0 <= len -> Z.of_nat (length (slice_z data off len)) <= len.
Proof. intros data off len L. unfold slice_z. rewrite firstn_length. lia. Qed.
(** Whatever the certificate holds, the stored name fits its buffer of 129
    bytes together with the terminating zero. *)
Theorem C89_fits : forall data n name,
  (forall p, In p [n_cn n; n_o n; n_email n] -> 0 <= fst p < 256) ->
  fabricate_name data n = (0, Some name) -> Z.of_nat (length name) + 1 <= 129.
Proof.
  intros data [[cs co] [os oo] [es eo]] name B E. cbn [n_cn n_o n_email] in B. unfold fabricate_name in E. cbn [n_cn n_o n_email] in E.
  assert (C : 0 <= cs < 256) by (apply (B (cs, co)); cbn; auto). assert (O : 0 <= os < 256) by (apply (B (os, oo)); cbn; auto).
  assert (M : 0 <= es < 256) by (apply (B (es, eo)); cbn; auto).
  assert (SG : forall size off, 0 <= size -> (if MAX_NAME <? size then (EOVERFLOW, None) else (0, Some (slice_z data off size))) = (0, Some name) ->
            Z.of_nat (length name) + 1 <= 129).
  { intros size off S X. destruct (Z.ltb_spec MAX_NAME size) as [L|L]; [discriminate|]. injection X as <-. unfold MAX_NAME in L.
    pose proof (slice_z_length data off size S). lia. }
  cbv zeta in E.
  destruct (_ && _ && _) in E; [injection E as <-; cbn; lia|].
  destruct (negb (cs =? 0) && negb (os =? 0)).
  - destruct ((os <=? cs) && _); [eapply SG; [|exact E]; lia|]. destruct (_ && _ && _) in E; [eapply SG; [|exact E]; lia|].
    destruct (Z.ltb_spec MAX_NAME (os + 2 + cs + 1)) as [L|L]; [discriminate|]. injection E as <-. unfold MAX_NAME in L.
    rewrite app_length. cbn [length app]. pose proof (slice_z_length data oo os ltac:(lia)). pose proof (slice_z_length data co cs ltac:(lia)). lia.
  - destruct (negb (cs =? 0)); [eapply SG; [|exact E]; lia|]. destruct (negb (os =? 0)); eapply SG; try exact E; lia.
Qed.
Print Assumptions C89_fits.
(** A common name shorter than 256 bytes within the first 64 KiB is stored as
    it is or refused when longer than 128 bytes. *)
Theorem C89_cn_partial : forall pre cn post, cn <> [] -> (length cn < 256)%nat -> Z.of_nat (length pre) < 65536 ->
  fabricate_name (pre ++ cn ++ post)
    {| n_cn := note_segment (Z.of_nat (length pre)) (Z.of_nat (length cn)); n_o := (0, 0); n_email := (0, 0) |} =
  if (length cn <=? 128)%nat then (0, Some cn) else (EOVERFLOW, None).
Proof.
  intros pre cn post NE L1 L2. unfold fabricate_name, note_segment. cbn [n_cn n_o n_email].
  rewrite !Z.mod_small by lia. destruct (Z.eqb_spec (Z.of_nat (length cn)) 0) as [E|E]; [destruct cn; [contradiction|cbn in E; lia]|].
  cbn [andb negb]. change (0 =? 0) with true. cbn [andb negb]. cbv zeta. unfold MAX_NAME.
  destruct (Nat.leb_spec (length cn) 128), (Z.ltb_spec 128 (Z.of_nat (length cn))); try lia; [|reflexivity].
  unfold slice_z. rewrite !Nat2Z.id. rewrite skipn_app, skipn_all, Nat.sub_diag. cbn [app skipn]. rewrite firstn_app, firstn_all, Nat.sub_diag.
  cbn [firstn]. rewrite app_nil_r. reflexivity.
Qed.
Print Assumptions C89_cn_partial.
Example C89_cn_partial_ex : fabricate_name [9; 9; 97; 98; 99; 9] {| n_cn := note_segment 2 3; n_o := (0, 0); n_email := (0, 0) |} = (0, Some [97; 98; 99]).
Proof. reflexivity. Qed.
(** "The name shown is the common name, or an error is returned" is false: of
    a common name of 261 bytes the first five are shown. *)
Theorem C89_cn_refuted : exists cn name,
  fabricate_name ([12; 130; 1; 5] ++ cn) {| n_cn := note_segment 4 (Z.of_nat (length cn)); n_o := (0, 0); n_email := (0, 0) |} =
  (0, Some name) /\ name = [97; 100; 109; 105; 110] /\ length cn = 261%nat.
Proof.
  exists ([97; 100; 109; 105; 110] ++ repeat 46 256). eexists. split; [vm_compute; reflexivity|]. split; reflexivity.
Qed.
Print Assumptions C89_cn_refuted.
Example C89_fits_ex : fabricate_name [97; 98; 99; 100] {| n_cn := (2, 0); n_o := (2, 2); n_email := (0, 0) |} =
  (0, Some [99; 100; 58; 32; 97; 98]).
Proof. reflexivity. Qed.
Example C88_pathlen_partial_ex : pk_pathlen (x_pub (snd (process_exts x0 [basic None (Some [255]) (Some [200])]))) = 144.
Proof. reflexivity. Qed.
