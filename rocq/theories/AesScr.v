(** AES: the table-free version equals the table version. *)
From Verif Require Import Bytes Words ZUtil AesSpec AesModel AesProof.
From Coq Require Import Btauto.

(** * C39: the table-free version *)
(** The little endian word of four bytes. *)
Definition W (a b c d : Z) : Z := a + 256 * (b + 256 * (c + 256 * d)).
Lemma W_le : forall a b c d, le_val [a; b; c; d] = W a b c d.
Proof. intros. unfold W. cbn [le_val]. lia. Qed.
Lemma W_bytes : forall a b c d, byte a -> byte b -> byte c -> byte d -> le_bytes 4 (W a b c d) = [a; b; c; d].
Proof.
  intros a b c d Ha Hb Hc Hd. rewrite <- W_le. apply (le_bytes_le_val [a; b; c; d]).
  unfold bytes. repeat (constructor; auto).
Qed.
Lemma W_range : forall a b c d, byte a -> byte b -> byte c -> byte d -> w32 (W a b c d).
Proof. intros a b c d. unfold byte, W, w32. change (2 ^ 32) with 4294967296. lia. Qed.
Lemma split_testbit : forall a x n, byte a -> 0 <= n ->
  Z.testbit (a + 256 * x) n = if n <? 8 then Z.testbit a n else Z.testbit x (n - 8).
Proof.
  intros a x n Ha Hn. unfold byte in Ha. destruct (n <? 8) eqn:E.
  - rewrite <- (Z.mod_pow2_bits_low (a + 256 * x) 8 n) by lia. f_equal.
    change (2 ^ 8) with 256. rewrite Z.mul_comm, Z_mod_plus_full. apply Z.mod_small. lia.
  - replace n with (n - 8 + 8) at 1 by lia. rewrite <- Z.div_pow2_bits by lia. f_equal.
    change (2 ^ 8) with 256. rewrite Z.mul_comm, Z.div_add by lia. rewrite Z.div_small by lia. lia.
Qed.
Lemma byte_land_l : forall a b, byte a -> 0 <= b -> byte (Z.land a b).
Proof.
  intros a b Ha Hb. unfold byte in *.
  assert (0 <= Z.land a b <= a); [|lia]. apply Z.ldiff_le; [lia|].
  apply Z.bits_inj'. intros n Hn. rewrite Z.ldiff_spec, Z.land_spec, Z.bits_0. btauto.
Qed.
Lemma lxor_split : forall a x b y, byte a -> byte b ->
  Z.lxor (a + 256 * x) (b + 256 * y) = Z.lxor a b + 256 * Z.lxor x y.
Proof.
  intros a x b y Ha Hb. apply Z.bits_inj'. intros n Hn.
  rewrite Z.lxor_spec, !split_testbit by (auto using byte_lxor). rewrite !Z.lxor_spec. destruct (n <? 8); reflexivity.
Qed.
Lemma land_split : forall a x b y, byte a -> byte b ->
  Z.land (a + 256 * x) (b + 256 * y) = Z.land a b + 256 * Z.land x y.
Proof.
  intros a x b y Ha Hb. apply Z.bits_inj'. intros n Hn.
  rewrite Z.land_spec, !split_testbit by (auto; apply byte_land_l; auto; apply Hb). rewrite !Z.land_spec. destruct (n <? 8); reflexivity.
Qed.
Lemma lxor_W : forall a b c d a' b' c' d', byte a -> byte b -> byte c -> byte d ->
  byte a' -> byte b' -> byte c' -> byte d' ->
  Z.lxor (W a b c d) (W a' b' c' d') = W (Z.lxor a a') (Z.lxor b b') (Z.lxor c c') (Z.lxor d d').
Proof. intros. unfold W. rewrite !lxor_split by auto. reflexivity. Qed.
Lemma land_W : forall a b c d a' b' c' d', byte a -> byte b -> byte c -> byte d ->
  byte a' -> byte b' -> byte c' -> byte d' ->
  Z.land (W a b c d) (W a' b' c' d') = W (Z.land a a') (Z.land b b') (Z.land c c') (Z.land d d').
Proof. intros. unfold W. rewrite !land_split by auto. reflexivity. Qed.
Lemma shiftr8_W : forall a b c d, byte a -> Z.shiftr (W a b c d) 8 = W b c d 0.
Proof.
  intros a b c d Ha. rewrite Z.shiftr_div_pow2 by lia. unfold W, byte in *. change (2 ^ 8) with 256.
  rewrite Z.mul_comm, Z.div_add, Z.div_small by lia. lia.
Qed.
Lemma ror8_W : forall a b c d, byte a -> byte b -> byte c -> byte d -> ror32 (W a b c d) 8 = W b c d a.
Proof.
  intros a b c d Ha Hb Hc Hd. unfold ror32. change (8 mod 32) with 8. change ((32 - 8) mod 32) with 24.
  rewrite shiftr8_W by auto. rewrite t32_mod, Z.shiftl_mul_pow2 by lia.
  replace (W a b c d * 2 ^ 24 mod 2 ^ 32) with (a * 2 ^ 24).
  - rewrite Z.lor_comm, lor_mul_pow2; unfold byte, W in *; [|lia|]; change (2 ^ 24) with 16777216; lia.
  - unfold W. apply (Z.mod_unique_pos _ _ (b + 256 * (c + 256 * d))); unfold byte in *;
      change (2 ^ 24) with 16777216; change (2 ^ 32) with 4294967296; lia.
Qed.
(** Rotations compose. *)
Lemma ror16_W : forall a b c d, byte a -> byte b -> byte c -> byte d -> ror32 (W a b c d) 16 = W c d a b.
Proof.
  intros a b c d Ha Hb Hc Hd. unfold ror32. change (16 mod 32) with 16. change ((32 - 16) mod 32) with 16.
  rewrite t32_mod, Z.shiftl_mul_pow2 by lia. rewrite Z.shiftr_div_pow2 by lia.
  replace (W a b c d * 2 ^ 16 mod 2 ^ 32) with ((a + 256 * b) * 2 ^ 16).
  2:{ unfold W. apply (Z.mod_unique_pos _ _ (c + 256 * d)); unfold byte in *;
      change (2 ^ 16) with 65536; change (2 ^ 32) with 4294967296; lia. }
  replace (W a b c d / 2 ^ 16) with (c + 256 * d).
  2:{ unfold W. apply (Z.div_unique_pos _ _ _ (a + 256 * b)); unfold byte in *; change (2 ^ 16) with 65536; lia. }
  rewrite Z.lor_comm, lor_mul_pow2; unfold byte, W in *; [|lia|]; change (2 ^ 16) with 65536; lia.
Qed.
Lemma ror24_W : forall a b c d, byte a -> byte b -> byte c -> byte d -> ror32 (W a b c d) 24 = W d a b c.
Proof.
  intros a b c d Ha Hb Hc Hd. unfold ror32. change (24 mod 32) with 24. change ((32 - 24) mod 32) with 8.
  rewrite t32_mod, Z.shiftl_mul_pow2 by lia. rewrite Z.shiftr_div_pow2 by lia.
  replace (W a b c d * 2 ^ 8 mod 2 ^ 32) with ((a + 256 * (b + 256 * c)) * 2 ^ 8).
  2:{ unfold W. apply (Z.mod_unique_pos _ _ d); unfold byte in *;
      change (2 ^ 8) with 256; change (2 ^ 32) with 4294967296; lia. }
  replace (W a b c d / 2 ^ 24) with d.
  2:{ unfold W. apply (Z.div_unique_pos _ _ _ (a + 256 * (b + 256 * c))); unfold byte in *; change (2 ^ 24) with 16777216; lia. }
  rewrite Z.lor_comm, lor_mul_pow2; unfold byte, W in *; [|lia|]; change (2 ^ 8) with 256; lia.
Qed.
Lemma ror0_W : forall a b c d, byte a -> byte b -> byte c -> byte d -> ror32 (W a b c d) 0 = W a b c d.
Proof.
  intros a b c d Ha Hb Hc Hd. unfold ror32. change (0 mod 32) with 0. change ((32 - 0) mod 32) with 0.
  rewrite Z.shiftr_0_r, Z.shiftl_0_r, t32_id by (apply W_range; auto). apply Z.lor_diag.
Qed.
Lemma rol_ror : forall x n, 0 < n < 32 -> rol32 x n = ror32 x (32 - n).
Proof.
  intros x n Hn. unfold rol32, ror32. rewrite (Z.mod_small n), (Z.mod_small (32 - n)) by lia.
  replace (32 - (32 - n)) with n by lia. rewrite (Z.mod_small n) by lia. apply Z.lor_comm.
Qed.
Lemma rol0_W : forall a b c d, byte a -> byte b -> byte c -> byte d -> rol32 (W a b c d) 0 = W a b c d.
Proof.
  intros a b c d Ha Hb Hc Hd. unfold rol32. change (0 mod 32) with 0. change ((32 - 0) mod 32) with 0.
  rewrite Z.shiftr_0_r, Z.shiftl_0_r, t32_id by (apply W_range; auto). apply Z.lor_diag.
Qed.
Lemma lor_W : forall e b c d, byte e -> Z.lor (W 0 b c d) e = W e b c d.
Proof.
  intros e b c d He. unfold W. replace (0 + 256 * (b + 256 * (c + 256 * d))) with ((b + 256 * (c + 256 * d)) * 2 ^ 8) by lia.
  rewrite lor_mul_pow2; unfold byte in *; lia.
Qed.
Lemma land255_W : forall a b c d, byte a -> Z.land (W a b c d) 0xff = a.
Proof.
  intros a b c d Ha. change 0xff with (Z.ones 8). rewrite Z.land_ones by lia. unfold W, byte in *.
  change (2 ^ 8) with 256. rewrite Z.mul_comm, Z_mod_plus_full. apply Z.mod_small. lia.
Qed.

(** Doubling in GF(2^8), four bytes at once. *)
Lemma xtime_parts : forall a, byte a ->
  xtime a = Z.lxor (2 * Z.lxor a (Z.land a 128)) (Z.land a 128 / 128 * 27).
Proof.
  apply (forall_byte_eq xtime (fun a => Z.lxor (2 * Z.lxor a (Z.land a 128)) (Z.land a 128 / 128 * 27))).
  vm_compute. reflexivity.
Qed.
Lemma xtime_low : forall a, byte a -> 0 <= 2 * Z.lxor a (Z.land a 128) <= 254.
Proof.
  intros a Ha. pose proof (forall_byte (fun a => (0 <=? 2 * Z.lxor a (Z.land a 128)) && (2 * Z.lxor a (Z.land a 128) <=? 254))
    ltac:(vm_compute; reflexivity) a Ha) as H. cbv beta in H. lia.
Qed.
Lemma xtime_high : forall a, byte a -> exists h, Z.land a 128 = 128 * h /\ 0 <= h <= 1.
Proof.
  intros a Ha. exists (Z.land a 128 / 128).
  pose proof (forall_byte (fun a => (Z.land a 128 =? 128 * (Z.land a 128 / 128)) && (0 <=? Z.land a 128 / 128) && (Z.land a 128 / 128 <=? 1))
    ltac:(vm_compute; reflexivity) a Ha) as H. cbv beta in H. lia.
Qed.
Lemma gf_mul2_W : forall a b c d, byte a -> byte b -> byte c -> byte d ->
  gf_mul2 (W a b c d) = W (xtime a) (xtime b) (xtime c) (xtime d).
Proof.
  intros a b c d Ha Hb Hc Hd. unfold gf_mul2.
  assert (B128 : byte 128) by (unfold byte; lia).
  change 0x80808080 with (W 128 128 128 128). rewrite land_W by auto.
  assert (BL : forall x, byte x -> byte (Z.land x 128)) by (intros x Hx; apply byte_land_l; auto; lia).
  rewrite lxor_W by auto. rewrite !xtime_parts by auto.
  pose proof (xtime_low a Ha) as La. pose proof (xtime_low b Hb) as Lb.
  pose proof (xtime_low c Hc) as Lc. pose proof (xtime_low d Hd) as Ld.
  destruct (xtime_high a Ha) as (ha&Ea&Ra). destruct (xtime_high b Hb) as (hb&Eb&Rb).
  destruct (xtime_high c Hc) as (hc&Ec&Rc). destruct (xtime_high d Hd) as (hd&Ed&Rd).
  set (pa := Z.lxor a (Z.land a 128)) in *. set (pb := Z.lxor b (Z.land b 128)) in *.
  set (pc := Z.lxor c (Z.land c 128)) in *. set (pd := Z.lxor d (Z.land d 128)) in *.
  rewrite Ea, Eb, Ec, Ed. clearbody pa pb pc pd.
  assert (D : forall h, 128 * h / 128 * 27 = h * 27) by (intros h; rewrite (Z.mul_comm 128 h), Z.div_mul by lia; reflexivity).
  rewrite !D.
  assert (E1 : u32 (Z.shiftl (W pa pb pc pd) 1) = W (2 * pa) (2 * pb) (2 * pc) (2 * pd)).
  { unfold u32. rewrite Z.shiftl_mul_pow2 by lia. rewrite Z.mod_small; unfold W; lia. }
  assert (E2 : u32 (Z.shiftr (W (128 * ha) (128 * hb) (128 * hc) (128 * hd)) 7 * 0x1b) = W (ha * 27) (hb * 27) (hc * 27) (hd * 27)).
  { replace (W (128 * ha) (128 * hb) (128 * hc) (128 * hd)) with (W ha hb hc hd * 2 ^ 7) by (unfold W; lia).
    rewrite Z.shiftr_div_pow2, Z.div_mul by lia. unfold u32. rewrite Z.mod_small; unfold W; lia. }
  rewrite E1, E2. apply lxor_W; unfold byte; lia.
Qed.

(** Lemma by lemma. *)
Lemma mix_one_W : forall a b c d, byte a -> byte b -> byte c -> byte d ->
  le_bytes 4 (mix_one_column (W a b c d)) = mix_column [a; b; c; d].
Proof.
  intros a b c d Ha Hb Hc Hd. unfold mix_one_column.
  rewrite ror8_W, ror16_W, ror24_W by auto. rewrite !lxor_W by (repeat apply byte_lxor; auto).
  rewrite gf_mul2_W by (repeat apply byte_lxor; auto).
  rewrite lxor_W by (repeat (apply byte_lxor || apply xtime_byte || assumption)).
  rewrite W_bytes by (repeat (apply byte_lxor || apply xtime_byte || assumption)).
  cbv beta iota zeta delta [mix_column]. rewrite !xtime_lxor by auto.
  repeat (apply f_equal2; [xor_bits|]). reflexivity.
Qed.
(** The inverse column map used by the table-free version: a linear map, inverse of mix_column. *)
Definition inv_pre (c : list Z) : list Z :=
  match c with
  | [a; b; c; d] =>
      let u := xtime (xtime (Z.lxor c a)) in let v := xtime (xtime (Z.lxor d b)) in
      [Z.lxor a u; Z.lxor b v; Z.lxor c u; Z.lxor d v]
  | _ => c
  end.
Lemma inv_pre_ok : col_ok inv_pre.
Proof.
  intros a b c d Ha Hb Hc Hd. cbv beta iota zeta delta [inv_pre]. split; [reflexivity|].
  unfold bytes. repeat (constructor; [repeat (apply byte_lxor || apply xtime_byte || assumption)|]). constructor.
Qed.
Lemma inv_pre_lin : lin4 inv_pre.
Proof.
  intros a b c d a' b' c' d' Ha Hb Hc Hd Ha' Hb' Hc' Hd'.
  cbv beta iota zeta delta [inv_pre]. cbn [xorl].
  rewrite !xtime_lxor by (repeat (apply byte_lxor || apply xtime_byte || assumption)).
  repeat (apply f_equal2; [xor_bits|]). reflexivity.
Qed.
Definition two_step (c : list Z) : list Z := mix_column (inv_pre c).
Lemma two_step_lin : lin4 two_step.
Proof.
  intros a b c d a' b' c' d' Ha Hb Hc Hd Ha' Hb' Hc' Hd'. unfold two_step.
  apply (fg_lin _ _ mix_lin inv_pre_lin inv_pre_ok); auto.
Qed.
Lemma two_step_ok : col_ok two_step.
Proof.
  intros a b c d Ha Hb Hc Hd. unfold two_step.
  destruct (inv_pre_ok a b c d Ha Hb Hc Hd) as [L B]. apply (col_ok' _ mix_ok); auto.
Qed.
Lemma two_step_mix : forall a b c d, byte a -> byte b -> byte c -> byte d ->
  two_step (mix_column [a; b; c; d]) = [a; b; c; d].
Proof.
  apply (fg_id _ _ two_step_lin mix_lin mix_ok).
  - apply (forall_byte_leq (fun a => two_step (mix_column [a; 0; 0; 0])) (fun a => [a; 0; 0; 0])). vm_compute; reflexivity.
  - apply (forall_byte_leq (fun a => two_step (mix_column [0; a; 0; 0])) (fun a => [0; a; 0; 0])). vm_compute; reflexivity.
  - apply (forall_byte_leq (fun a => two_step (mix_column [0; 0; a; 0])) (fun a => [0; 0; a; 0])). vm_compute; reflexivity.
  - apply (forall_byte_leq (fun a => two_step (mix_column [0; 0; 0; a])) (fun a => [0; 0; 0; a])). vm_compute; reflexivity.
Qed.
Lemma two_step_inv : forall a b c d, byte a -> byte b -> byte c -> byte d ->
  two_step [a; b; c; d] = inv_mix_column [a; b; c; d].
Proof.
  intros a b c d Ha Hb Hc Hd. rewrite <- (mix_inv_mix a b c d) at 1 by auto.
  destruct (inv_ok a b c d Ha Hb Hc Hd) as [L B]. destruct (list4 _ L) as (x&y&z&t&E). rewrite E in *.
  unfold bytes in B. inv_bytes B. apply two_step_mix; auto.
Qed.
Lemma mix_one_inv_W : forall a b c d, byte a -> byte b -> byte c -> byte d ->
  le_bytes 4 (mix_one_inv (W a b c d)) = inv_mix_column [a; b; c; d].
Proof.
  intros a b c d Ha Hb Hc Hd. rewrite <- two_step_inv by auto. unfold mix_one_inv.
  rewrite ror16_W by auto. rewrite lxor_W by auto. rewrite !gf_mul2_W by (auto using byte_lxor, xtime_byte).
  rewrite lxor_W by (auto using byte_lxor, xtime_byte).
  rewrite mix_one_W by (auto using byte_lxor, xtime_byte).
  unfold two_step, inv_pre. rewrite (Z.lxor_comm a c), (Z.lxor_comm b d). reflexivity.
Qed.
Lemma scr_mix_eq : forall s, st16 s -> scr_mix_columns s = aes_mix_columns s.
Proof. apply columns_ext. intros. rewrite W_le. apply mix_one_W; auto. Qed.
Lemma scr_mix_inv_eq : forall s, st16 s -> scr_mix_columns_inv s = Invaes_mix_columns s.
Proof. apply columns_ext. intros. rewrite W_le. apply mix_one_inv_W; auto. Qed.
Lemma scr_sub_eq : forall s, st16 s -> scr_sub_bytes s = aes_sub_bytes s.
Proof. intros s [Hl Hb]. apply map_ext_bytes; auto. apply scr_sbox. Qed.
Lemma scr_sub_inv_eq : forall s, st16 s -> scr_sub_bytes_inv s = Invaes_sub_bytes s.
Proof. intros s [Hl Hb]. apply map_ext_bytes; auto. apply scr_rsbox. Qed.

Lemma row_get_W : forall s i, byte (nth i s 0) -> byte (nth (i + 4) s 0) -> byte (nth (i + 8) s 0) -> byte (nth (i + 12) s 0) ->
  row_get s i = W (nth i s 0) (nth (i + 4) s 0) (nth (i + 8) s 0) (nth (i + 12) s 0).
Proof.
  intros s i Ha Hb Hc Hd. unfold row_get. cbn [fold_left]. pose proof byte0 as B0.
  change 0 with (W 0 0 0 0) at 1. rewrite lor_W, ror8_W by auto.
  rewrite lor_W, ror8_W by auto. rewrite lor_W, ror8_W by auto. rewrite lor_W, ror8_W by auto. reflexivity.
Qed.
Lemma row_set_W : forall s i a b c d, byte a -> byte b -> byte c -> byte d ->
  row_set s i (W a b c d) = upd (upd (upd (upd s i a) (i + 4) b) (i + 8) c) (i + 12) d.
Proof.
  intros s i a b c d Ha Hb Hc Hd. unfold row_set. cbn [fold_left fst snd].
  rewrite !shiftr8_W by auto. rewrite !land255_W by auto. reflexivity.
Qed.
Lemma scr_shift_eq : forall s, st16 s -> scr_shift_rows s = aes_shift_rows s.
Proof.
  intros s [Hl Hb]. d16 s Hl. unfold bytes in Hb. inv_bytes Hb.
  unfold scr_shift_rows. cbn [fold_left].
  change (Z.of_nat (0 * 8)) with 0. change (Z.of_nat (1 * 8)) with 8. change (Z.of_nat (2 * 8)) with 16. change (Z.of_nat (3 * 8)) with 24.
  rewrite row_get_W by assumption. cbn [Nat.add nth]. rewrite ror0_W, row_set_W by assumption. cbn [Nat.add upd].
  rewrite row_get_W by assumption. cbn [Nat.add nth]. rewrite ror8_W, row_set_W by assumption. cbn [Nat.add upd].
  rewrite row_get_W by assumption. cbn [Nat.add nth]. rewrite ror16_W, row_set_W by assumption. cbn [Nat.add upd].
  rewrite row_get_W by assumption. cbn [Nat.add nth]. rewrite ror24_W, row_set_W by assumption. cbn [Nat.add upd].
  reflexivity.
Qed.
Lemma scr_shift_inv_eq : forall s, st16 s -> scr_shift_rows_inv s = Invaes_shift_rows s.
Proof.
  intros s [Hl Hb]. d16 s Hl. unfold bytes in Hb. inv_bytes Hb.
  unfold scr_shift_rows_inv. cbn [fold_left].
  change (Z.of_nat (0 * 8)) with 0. change (Z.of_nat (1 * 8)) with 8. change (Z.of_nat (2 * 8)) with 16. change (Z.of_nat (3 * 8)) with 24.
  rewrite row_get_W by assumption. cbn [Nat.add nth]. rewrite rol0_W, row_set_W by assumption. cbn [Nat.add upd].
  rewrite row_get_W by assumption. cbn [Nat.add nth]. rewrite rol_ror by lia. change (32 - 8) with 24. rewrite ror24_W, row_set_W by assumption. cbn [Nat.add upd].
  rewrite row_get_W by assumption. cbn [Nat.add nth]. rewrite rol_ror by lia. change (32 - 16) with 16. rewrite ror16_W, row_set_W by assumption. cbn [Nat.add upd].
  rewrite row_get_W by assumption. cbn [Nat.add nth]. rewrite rol_ror by lia. change (32 - 24) with 8. rewrite ror8_W, row_set_W by assumption. cbn [Nat.add upd].
  reflexivity.
Qed.

(** ** Round keys and key schedule of the table-free version *)
Lemma flat_le : forall ws, words_ok ws -> flat_map (le_bytes 4) (map le_val ws) = concat ws.
Proof.
  induction 1 as [|x ws [Hl Hb] Hw IH]; cbn [map flat_map concat]; [reflexivity|].
  rewrite IH. rewrite <- Hl at 1. rewrite le_bytes_le_val by auto. reflexivity.
Qed.
Lemma words_firstn : forall n ws, words_ok ws -> words_ok (firstn n ws).
Proof. intros n ws H. revert n. induction H; intros [|n]; cbn [firstn]; constructor; auto. apply IHForall. Qed.
Lemma words_skipn : forall n ws, words_ok ws -> words_ok (skipn n ws).
Proof. intros n ws H. revert n. induction H; intros [|n]; cbn [skipn]; try constructor; auto. Qed.
Lemma concat_firstn : forall n ws, words_ok ws -> concat (firstn n ws) = firstn (4 * n) (concat ws).
Proof.
  intros n ws H. revert n. induction H as [|x ws [Hl Hb] Hw IH]; intros [|n]; cbn [firstn concat]; try reflexivity.
  rewrite IH. replace (4 * S n)%nat with (length x + 4 * n)%nat by lia. rewrite firstn_app_2. reflexivity.
Qed.
Lemma concat_skipn : forall n ws, words_ok ws -> concat (skipn n ws) = skipn (4 * n) (concat ws).
Proof.
  intros n ws H. revert n. induction H as [|x ws [Hl Hb] Hw IH]; intros [|n]; cbn [skipn concat]; try reflexivity.
  rewrite IH. replace (4 * S n)%nat with (4 + 4 * n)%nat by lia. destruct (list4 _ Hl) as (?&?&?&?&->). reflexivity.
Qed.
Lemma scr_ark_eq : forall ws r s, words_ok ws ->
  scr_add_round_key r s (map le_val ws) = add_round_key r s (concat ws).
Proof.
  intros ws r s Hw. unfold scr_add_round_key, add_round_key, slice.
  rewrite skipn_map, firstn_map, flat_le by (apply words_firstn, words_skipn, Hw).
  rewrite concat_firstn by (apply words_skipn, Hw). rewrite concat_skipn by exact Hw.
  replace (4 * (4 * r))%nat with (r * 16)%nat by lia. reflexivity.
Qed.
Lemma sub_word_W : forall a b c d, byte a -> byte b -> byte c -> byte d ->
  aes_sub_word (W a b c d) = W (getSBoxValue a) (getSBoxValue b) (getSBoxValue c) (getSBoxValue d).
Proof.
  intros a b c d Ha Hb Hc Hd. unfold aes_sub_word. cbn [sub_word_loop]. pose proof byte0 as B0.
  change 0 with (W 0 0 0 0) at 1.
  rewrite !shiftr8_W by auto. rewrite !land255_W by auto. rewrite !scr_sbox by auto.
  pose proof (sbox_byte a Ha). pose proof (sbox_byte b Hb). pose proof (sbox_byte c Hc). pose proof (sbox_byte d Hd).
  rewrite lor_W, ror8_W by auto. rewrite lor_W, ror8_W by auto. rewrite lor_W, ror8_W by auto. rewrite lor_W, ror8_W by auto.
  reflexivity.
Qed.
Lemma byte_W : forall a, a = W a 0 0 0.
Proof. intros. unfold W. lia. Qed.
Lemma nth_le : forall w k, nth k (map le_val w) 0 = le_val (nth k w []).
Proof. intros. change 0 with (le_val []). apply map_nth. Qed.

Lemma scr_key_expansion_eq : forall nk nr key, good_type nk nr -> length key = (4 * nk)%nat -> bytes key ->
  aes_key_expansion_scr nk nr key = map le_val (KeyExpansion nk nr key).
Proof.
  intros nk nr key G Hl Hb. unfold aes_key_expansion_scr, KeyExpansion.
  replace (4 * nr + 4 - nk)%nat with (4 * (nr + 1) - nk)%nat by lia.
  set (N := (4 * (nr + 1) - nk)%nat). fold (spec_words nk key N).
  assert (Hnk : (0 < nk)%nat) by (unfold good_type in G; lia).
  assert (A : forall n, fold_left (scr_key_step nk) (seq nk n) (map (fun i => le_val (slice key (4 * i) 4)) (seq 0 nk), 1)
    = (map le_val (spec_words nk key n), gpow2 ((nk + n - 1) / nk))).
  { induction n as [|n IH].
    - unfold spec_words. cbn [seq fold_left]. rewrite map_map. rewrite Nat.div_small by lia. reflexivity.
    - rewrite seq_S, fold_left_app, IH. cbn [fold_left]. rewrite spec_words_S, map_app. cbn [map].
      destruct (spec_words_ok nk key n Hnk Hl Hb) as [Wk L].
      set (w := spec_words nk key n) in *. unfold scr_key_step. unfold next_word.
      replace (nk + S n - 1)%nat with (nk + n)%nat by lia.
      set (i := (nk + n)%nat) in *. rewrite !nth_le.
      destruct (words_nth w (i - 1) Wk ltac:(lia)) as [L1 B1]. destruct (words_nth w (i - nk) Wk ltac:(lia)) as [L2 B2].
      destruct (list4 _ L1) as (a&b&c&d&E1). destruct (list4 _ L2) as (a'&b'&c'&d'&E2). rewrite E1, E2 in *.
      unfold bytes in B1, B2. inv_bytes B1. inv_bytes B2. rewrite !W_le. pose proof byte0 as B0.
      pose proof (gpow2_byte (i / nk - 1)) as GB.
      rewrite (div_pred i nk) by lia.
      destruct (Nat.eqb_spec (i mod nk) 0) as [M|M].
      + rewrite ror8_W, sub_word_W by auto. unfold RCON, SubWord, RotWord. cbn [nth map xorl]. rewrite <- !sbox_spec by auto.
        rewrite W_le. f_equal.
        * do 2 f_equal. rewrite (byte_W (gpow2 (i / nk - 1))) at 1.
          rewrite !lxor_W by (auto using sbox_byte, byte_lxor). reflexivity.
        * rewrite (byte_W (gpow2 (i / nk - 1))). rewrite gf_mul2_W by auto. change (xtime 0) with 0. rewrite <- byte_W.
          rewrite <- gmul2 by auto. change (gmul 2 (gpow2 (i / nk - 1))) with (gpow2 (S (i / nk - 1))). f_equal.
          assert (1 <= i / nk)%nat by (apply Nat.div_le_lower_bound; lia). lia.
      + destruct ((6 <? nk) && (i mod nk =? 4))%nat.
        * rewrite sub_word_W by auto. unfold SubWord. cbn [map xorl]. rewrite <- !sbox_spec by auto.
          rewrite W_le, lxor_W by (auto using sbox_byte). reflexivity.
        * cbn [xorl]. rewrite W_le, lxor_W by auto. reflexivity. }
  rewrite A. reflexivity.
Qed.

Section Scr.
  Variables (nr : nat) (ws : list (list Z)).
  Hypotheses (Hw : words_ok ws) (Hl : length ws = (4 * (nr + 1))%nat) (Hn : (0 < nr)%nat).
  Lemma scr_K : rk_ok nr (concat ws).
  Proof. split; [rewrite words_concat_len by auto; lia|apply words_concat_bytes; auto]. Qed.
  Lemma scr_rounds_eq : forall k r s, (r + k <= nr)%nat -> st16 s ->
    scr_shift_rows (scr_sub_bytes (scr_rounds k r s (map le_val ws))) = cipher_rounds k r s (concat ws).
  Proof.
    induction k as [|k IH]; intros r s Hr Hs; cbn [scr_rounds]; [rewrite cipher_rounds_O|rewrite cipher_rounds_S].
    - rewrite scr_sub_eq by auto. apply scr_shift_eq, sub_st16, Hs.
    - rewrite (scr_sub_eq s) by auto. rewrite (scr_shift_eq (aes_sub_bytes s)) by (apply sub_st16, Hs).
      rewrite scr_mix_eq by (apply shift_st16, sub_st16, Hs). rewrite scr_ark_eq by auto.
      apply IH; [lia|]. apply (ark_st16 nr _ _ _ scr_K); [lia|]. apply mix_st16, shift_st16, sub_st16, Hs.
  Qed.
  Lemma scr_cipher_eq : forall c s, ae_rk c = concat ws -> ae_nr c = nr -> st16 s ->
    aes_cipher_scr nr (map le_val ws) s = aes_cipher c s.
  Proof.
    intros c s E1 E2 Hs. unfold aes_cipher_scr, aes_cipher. rewrite E1, E2, !scr_ark_eq by auto.
    rewrite scr_rounds_eq; [reflexivity|lia|]. apply (ark_st16 nr _ _ _ scr_K); [lia|exact Hs].
  Qed.
  Lemma scr_inv_rounds_eq : forall r s, (r <= nr)%nat -> st16 s ->
    add_round_key 0 (scr_shift_rows_inv (scr_sub_bytes_inv (scr_inv_rounds r s (map le_val ws)))) (concat ws)
    = inv_rounds r s (concat ws).
  Proof.
    assert (C : forall s, st16 s -> scr_shift_rows_inv (scr_sub_bytes_inv s) = Invaes_sub_bytes (Invaes_shift_rows s)).
    { intros s Hs. rewrite scr_sub_inv_eq by auto. rewrite scr_shift_inv_eq by (apply invsub_st16, Hs).
      destruct Hs as [L B]. d16 s L. reflexivity. }
    induction r as [|r IH]; intros s Hr Hs; cbn [scr_inv_rounds]; [rewrite inv_rounds_O|rewrite inv_rounds_S].
    - rewrite C by auto. reflexivity.
    - rewrite (C s) by auto. rewrite scr_ark_eq by auto.
      assert (H1 : st16 (add_round_key (S r) (Invaes_sub_bytes (Invaes_shift_rows s)) (concat ws))).
      { apply (ark_st16 nr _ _ _ scr_K); [lia|]. apply invsub_st16, invshift_st16, Hs. }
      rewrite scr_mix_inv_eq by exact H1. apply IH; [lia|]. apply invmix_st16, H1.
  Qed.
  Lemma scr_inv_cipher_eq : forall c s, ae_rk c = concat ws -> ae_nr c = nr -> st16 s ->
    aes_inv_cipher_scr nr (map le_val ws) s = aes_inv_cipher c s.
  Proof.
    intros c s E1 E2 Hs. unfold aes_inv_cipher_scr, aes_inv_cipher. rewrite E1, E2, !scr_ark_eq by auto.
    apply scr_inv_rounds_eq; [lia|]. apply (ark_st16 nr _ _ _ scr_K); [lia|exact Hs].
  Qed.
End Scr.
