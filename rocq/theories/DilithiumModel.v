(** ML-DSA, the C implementation in ml-dsa/src (files are named relative to it). The vector and
    assembler variants (armv7, armv8, avx2, riscv64) are not modelled.
    int32_t values are integers in range; every int32_t result goes through [s32] (the library is
    compiled with -fwrapv, [/repo/meson.build: 34], which makes signed overflow wrap).
    A polynomial is the list of its 256 coefficients, a vector the list of its polynomials. *)
From Verif Require Import Bytes Words KeccakModel Sha3Model KeccakBytes KmacModel UtilModel NttLoop KyberModel.

Definition s32 (x : Z) : Z := (x + 2147483648) mod 4294967296 - 2147483648.

(** ** Parameters [ml-dsa/api/lc_dilithium_size.h.in: 53-146] *)
Definition DQ : Z := 8380417.
Record dparam := mkD { d_k : nat; d_l : nat; d_eta : Z; d_tau : nat; d_beta : Z; d_g1 : Z; d_g2 : Z; d_omega : nat;
                       d_ct : nat; d_cat : Z }.
Definition ML_DSA_44 : dparam := mkD 4 4 2 39 78 (2 ^ 17) ((DQ - 1) / 88) 80 32 1.
Definition ML_DSA_65 : dparam := mkD 6 5 4 49 196 (2 ^ 19) ((DQ - 1) / 32) 55 48 3.
Definition ML_DSA_87 : dparam := mkD 8 7 2 60 120 (2 ^ 19) ((DQ - 1) / 32) 75 64 5.

(** ** dilithium_reduce.h *)
(** [dilithium_reduce.h: 51-58] QINV = 58728449 *)
Definition d_mont (a : Z) : Z :=
  let t := s32 (s32 a * 58728449) in
  s32 (Z.shiftr (a - t * DQ) 32).
(** [dilithium_reduce.h: 69-76] *)
Definition d_reduce32 (a : Z) : Z :=
  let t := Z.shiftr (s32 (a + 4194304)) 23 in
  s32 (a - s32 (t * DQ)).
(** [dilithium_reduce.h: 85-89] *)
Definition d_caddq (a : Z) : Z := s32 (a + Z.land (Z.shiftr a 31) DQ).
(** [dilithium_reduce.h: 99-104] *)
Definition d_freeze (a : Z) : Z := d_caddq (d_reduce32 a).

(** ** dilithium_rounding.c; the functions return (a1, a0) *)
(** [dilithium_rounding.c: 40-47] *)
Definition d_power2round (a : Z) : Z * Z :=
  let a1 := Z.shiftr (s32 (s32 (a + 4096) - 1)) 13 in
  (a1, s32 (a - s32 (Z.shiftl a1 13))).
(** [dilithium_rounding.c: 61-80] *)
Definition d_decompose (g2 a : Z) : Z * Z :=
  let a1 := Z.shiftr (s32 (a + 127)) 7 in
  let a1 := if g2 =? (DQ - 1) / 32
            then Z.land (Z.shiftr (s32 (s32 (a1 * 1025) + 2097152)) 22) 15
            else let b := Z.shiftr (s32 (s32 (a1 * 11275) + 8388608)) 24 in
                 Z.lxor b (Z.land (Z.shiftr (s32 (43 - b)) 31) b) in
  let a0 := s32 (a - s32 (s32 (a1 * 2) * g2)) in
  (a1, s32 (a0 - Z.land (Z.shiftr (s32 ((DQ - 1) / 2 - a0)) 31) DQ)).
(** [dilithium_rounding.c: 91-98] *)
Definition d_make_hint (g2 a0 a1 : Z) : Z :=
  if (g2 <? a0) || (a0 <? - g2) || ((a0 =? - g2) && negb (a1 =? 0)) then 1 else 0.
(** [dilithium_rounding.c: 108-129] *)
Definition d_use_hint (g2 a hint : Z) : Z :=
  let '(a1, a0) := d_decompose g2 a in
  if hint =? 0 then a1
  else if g2 =? (DQ - 1) / 32
  then if 0 <? a0 then Z.land (a1 + 1) 15 else Z.land (a1 - 1) 15
  else if 0 <? a0 then (if a1 =? 43 then 0 else a1 + 1) else (if a1 =? 0 then 43 else a1 - 1).

(** ** dilithium_zetas.c *)
(** [dilithium_zetas.c: 30-68] *)
Definition dilithium_zetas : list Z :=
  [0; 25847; -2608894; -518909; 237124; -777960; -876248; 466468; 1826347; 2353451; -359251; -2091905;   
3119733; -2884855; 3111497; 2680103; 2725464; 1024112; -1079900; 3585928; -549488; -1119584; 2619752; 
-2108549;   -2118186; -3859737; -1399561; -3277672; 1757237; -19422; 4010497; 280005; 2706023; 95776; 
3077325; 3530437;   -1661693; -3592148; -2537516; 3915439; -3861115; -3043716; 3574422; -2867647; 3539968; 
-300467; 2348700; -539299;   -1699267; -1643818; 3505694; -3821735; 3507263; -2140649; -1600420; 3699596; 
811944; 531354; 954230; 3881043;   3900724; -2556880; 2071892; -2797779; -3930395; -1528703; -3677745; 
-3041255; -1452451; 3475950; 2176455; -1585221;   -1257611; 1939314; -4083598; -1000202; -3190144; 
-3157330; -3632928; 126922; 3412210; -983419; 2147896; 2715295;   -2967645; -3693493; -411027; -2477047; 
-671102; -1228525; -22981; -1308169; -381987; 1349076; 1852771; -1430430;   -3343383; 264944; 508951; 
3097992; 44288; -1100098; 904516; 3958618; -3724342; -8578; 1653064; -3249728;   2389356; -210977; 759969; 
-1316856; 189548; -3553272; 3159746; -1851402; -2409325; -177440; 1315589; 1341330;   1285669; -1584928; 
-812732; -1439742; -3019102; -3881060; -3628969; 3839961; 2091667; 3407706; 2316500; 3817976;   -3342478; 
2244091; -2446433; -3562462; 266997; 2434439; -1235728; 3513181; -3520352; -3759364; -1197226; -3193378;   
900702; 1859098; 909542; 819034; 495491; -1613174; -43260; -522500; -655327; -3122442; 2031748; 3207046;   
-3556995; -525098; -768622; -3595838; 342297; 286988; -2437823; 4108315; 3437287; -3342277; 1735879; 
203044;   2842341; 2691481; -2590150; 1265009; 4055324; 1247620; 2486353; 1595974; -3767016; 1250494; 
2635921; -3548272;   -2994039; 1869119; 1903435; -1050970; -1333058; 1237275; -3318210; -1430225; -451100; 
1312455; 3306115; -1962642;   -1279661; 1917081; -2546312; -1374803; 1500165; 777191; 2235880; 3406031; 
-542412; -2831860; -1671176; -1846953;   -2584293; -3724270; 594136; -3776993; -2013608; 2432395; 2454455; 
-164721; 1957272; 3369112; 185531; -1207385;   -3183426; 162844; 1616392; 3014001; 810149; 1652634; 
-3694233; -1799107; -3038916; 3523897; 3866901; 269760;   2213111; -975884; 1717735; 472078; -426683; 
1723600; -1803090; 1910376; -1667432; -1104333; -260646; -3833893;   -2939036; -2235985; -420899; -2286327; 
183443; -976891; 1612842; -3545687; -554416; 3919660; -48306; -1362209;   3937738; 1400424; -846154; 1976782].
Definition dzeta (k : nat) : Z := nth k dilithium_zetas 0.

(** ** dilithium_ntt.c *)
(** [dilithium_ntt.c: 48-52] the loop body of ntt *)
Definition d_ct_bf (zeta x y : Z) : Z * Z :=
  let t := d_mont (zeta * y) in (s32 (x + t), s32 (x - t)).
(** [dilithium_ntt.c: 39-57] *)
Definition d_ntt (a : list Z) : list Z := loop_down d_ct_bf dzeta S 256 256 1 128 1 a.
(** [dilithium_ntt.c: 78-84] the loop body of invntt_tomont; zeta = -zetas[--k] *)
Definition d_gs_bf (zeta x y : Z) : Z * Z :=
  (s32 (x + y), d_mont (s32 (- zeta) * s32 (x - y))).
(** [dilithium_ntt.c: 68-91] f = 41978 = 2^64/256 mod q *)
Definition d_invntt (a : list Z) : list Z :=
  map (fun x => d_mont (41978 * x)) (loop_up d_gs_bf dzeta pred 256 256 256 1 255 a).

(** ** dilithium_poly.h, dilithium_poly_c.h, dilithium_poly.c *)
(** [dilithium_poly.h: 51-57] *)
Definition d_add (a b : list Z) : list Z := zip2 (fun x y => s32 (x + y)) a b.
(** [dilithium_poly.h: 68-74] *)
Definition d_sub (a b : list Z) : list Z := zip2 (fun x y => s32 (x - y)) a b.
(** [dilithium_poly.h: 83-89] *)
Definition d_shiftl (a : list Z) : list Z := map (fun x => s32 (Z.shiftl x 13)) a.
(** [dilithium_poly_c.h: 35-41] *)
Definition d_reduce (a : list Z) : list Z := map d_reduce32 a.
(** [dilithium_poly_c.h: 49-55] *)
Definition d_caddqs (a : list Z) : list Z := map d_caddq a.
(** [dilithium_poly_c.h: 67-74] *)
Definition d_pointwise (a b : list Z) : list Z := zip2 (fun x y => d_mont (x * y)) a b.
(** [dilithium_poly.c: 43-66] true: some coefficient has absolute value at least B *)
Definition d_chknorm (B : Z) (a : list Z) : bool :=
  ((DQ - 1) / 8 <? B) || existsb (fun c => B <=? s32 (c - Z.land (Z.shiftr c 31) (s32 (2 * c)))) a.

(** [dilithium_poly.c: 223-255] *)
Definition eta2_pk (t : list Z) : list Z :=
  match t with
  | [t0; t1; t2; t3; t4; t5; t6; t7] =>
      [u8 ((t0 >>' 0) .| (t1 <<' 3) .| (t2 <<' 6)); u8 ((t2 >>' 2) .| (t3 <<' 1) .| (t4 <<' 4) .| (t5 <<' 7));
       u8 ((t5 >>' 1) .| (t6 <<' 2) .| (t7 <<' 5))]
  | _ => []
  end.
Definition eta4_pk (t : list Z) : list Z := match t with [t0; t1] => [u8 (t0 .| (t1 <<' 4))] | _ => [] end.
Definition d_polyeta_pack (eta : Z) (a : list Z) : list Z :=
  let t := map (fun c => u8 (eta - c)) a in
  if eta =? 2 then flat_map eta2_pk (full_chunks 8 t) else flat_map eta4_pk (full_chunks 2 t).
(** [dilithium_poly.c: 263-299] *)
Definition eta2_up (b : list Z) : list Z :=
  match b with
  | [a0; a1; a2] =>
      [Z.land (a0 >>' 0) 7; Z.land (a0 >>' 3) 7; Z.land ((a0 >>' 6) .| (a1 <<' 2)) 7; Z.land (a1 >>' 1) 7;
       Z.land (a1 >>' 4) 7; Z.land ((a1 >>' 7) .| (a2 <<' 1)) 7; Z.land (a2 >>' 2) 7; Z.land (a2 >>' 5) 7]
  | _ => []
  end.
Definition eta4_up (b : list Z) : list Z := match b with [a] => [Z.land a 15; a >>' 4] | _ => [] end.
Definition d_polyeta_unpack (eta : Z) (a : list Z) : list Z :=
  map (fun c => eta - c) (if eta =? 2 then flat_map eta2_up (full_chunks 3 a) else flat_map eta4_up (full_chunks 1 a)).
(** [dilithium_poly.c: 310-324] *)
Definition t1_pk (a : list Z) : list Z :=
  match a with
  | [a0; a1; a2; a3] =>
      [u8 (a0 >>' 0); u8 ((a0 >>' 8) .| (a1 <<' 2)); u8 ((a1 >>' 6) .| (a2 <<' 4)); u8 ((a2 >>' 4) .| (a3 <<' 6)); u8 (a3 >>' 2)]
  | _ => []
  end.
Definition d_polyt1_pack (a : list Z) : list Z := flat_map t1_pk (full_chunks 4 a).
(** [dilithium_poly_c.h: 102-120] *)
Definition t1_up (b : list Z) : list Z :=
  match b with
  | [a0; a1; a2; a3; a4] =>
      [Z.land ((a0 >>' 0) .| (a1 <<' 8)) 0x3FF; Z.land ((a1 >>' 2) .| (a2 <<' 6)) 0x3FF;
       Z.land ((a2 >>' 4) .| (a3 <<' 4)) 0x3FF; Z.land ((a3 >>' 6) .| (a4 <<' 2)) 0x3FF]
  | _ => []
  end.
Definition d_polyt1_unpack (a : list Z) : list Z := flat_map t1_up (full_chunks 5 a).
(** [dilithium_poly.c: 334-380] *)
Definition t0_pk (t : list Z) : list Z :=
  match t with
  | [t0; t1; t2; t3; t4; t5; t6; t7] =>
      [u8 t0; u8 (t0 >>' 8) .| u8 (t1 <<' 5); u8 (t1 >>' 3); u8 (t1 >>' 11) .| u8 (t2 <<' 2);
       u8 (t2 >>' 6) .| u8 (t3 <<' 7); u8 (t3 >>' 1); u8 (t3 >>' 9) .| u8 (t4 <<' 4); u8 (t4 >>' 4);
       u8 (t4 >>' 12) .| u8 (t5 <<' 1); u8 (t5 >>' 7) .| u8 (t6 <<' 6); u8 (t6 >>' 2); u8 (t6 >>' 10) .| u8 (t7 <<' 3);
       u8 (t7 >>' 5)]
  | _ => []
  end.
Definition d_polyt0_pack (a : list Z) : list Z :=
  flat_map t0_pk (full_chunks 8 (map (fun c => u32 (4096 - c)) a)).
(** [dilithium_poly.c: 389-447] *)
Definition t0_up (b : list Z) : list Z :=
  match b with
  | [a0; a1; a2; a3; a4; a5; a6; a7; a8; a9; a10; a11; a12] =>
      [Z.land (a0 .| (a1 <<' 8)) 0x1FFF; Z.land ((a1 >>' 5) .| (a2 <<' 3) .| (a3 <<' 11)) 0x1FFF;
       Z.land ((a3 >>' 2) .| (a4 <<' 6)) 0x1FFF; Z.land ((a4 >>' 7) .| (a5 <<' 1) .| (a6 <<' 9)) 0x1FFF;
       Z.land ((a6 >>' 4) .| (a7 <<' 4) .| (a8 <<' 12)) 0x1FFF; Z.land ((a8 >>' 1) .| (a9 <<' 7)) 0x1FFF;
       Z.land ((a9 >>' 6) .| (a10 <<' 2) .| (a11 <<' 10)) 0x1FFF; Z.land ((a11 >>' 3) .| (a12 <<' 5)) 0x1FFF]
  | _ => []
  end.
Definition d_polyt0_unpack (a : list Z) : list Z :=
  map (fun c => 4096 - c) (flat_map t0_up (full_chunks 13 a)).
(** [dilithium_poly.c: 457-499] *)
Definition z17_pk (t : list Z) : list Z :=
  match t with
  | [t0; t1; t2; t3] =>
      [u8 t0; u8 (t0 >>' 8); u8 (t0 >>' 16) .| u8 (t1 <<' 2); u8 (t1 >>' 6); u8 (t1 >>' 14) .| u8 (t2 <<' 4);
       u8 (t2 >>' 4); u8 (t2 >>' 12) .| u8 (t3 <<' 6); u8 (t3 >>' 2); u8 (t3 >>' 10)]
  | _ => []
  end.
Definition z19_pk (t : list Z) : list Z :=
  match t with
  | [t0; t1] => [u8 t0; u8 (t0 >>' 8); u8 (t0 >>' 16) .| u8 (t1 <<' 4); u8 (t1 >>' 4); u8 (t1 >>' 12)]
  | _ => []
  end.
Definition d_polyz_pack (g1 : Z) (a : list Z) : list Z :=
  let t := map (fun c => u32 (g1 - c)) a in
  if g1 =? 2 ^ 17 then flat_map z17_pk (full_chunks 4 t) else flat_map z19_pk (full_chunks 2 t).
(** [dilithium_poly.c: 508-563] *)
Definition z17_up (b : list Z) : list Z :=
  match b with
  | [a0; a1; a2; a3; a4; a5; a6; a7; a8] =>
      [Z.land (a0 .| (a1 <<' 8) .| (a2 <<' 16)) 0x3FFFF; Z.land ((a2 >>' 2) .| (a3 <<' 6) .| (a4 <<' 14)) 0x3FFFF;
       Z.land ((a4 >>' 4) .| (a5 <<' 4) .| (a6 <<' 12)) 0x3FFFF; Z.land ((a6 >>' 6) .| (a7 <<' 2) .| (a8 <<' 10)) 0x3FFFF]
  | _ => []
  end.
Definition z19_up (b : list Z) : list Z :=
  match b with
  | [a0; a1; a2; a3; a4] =>
      [Z.land (a0 .| (a1 <<' 8) .| (a2 <<' 16)) 0xFFFFF; Z.land ((a2 >>' 4) .| (a3 <<' 4) .| (a4 <<' 12)) 0xFFFFF]
  | _ => []
  end.
Definition d_polyz_unpack (g1 : Z) (a : list Z) : list Z :=
  map (fun c => g1 - c) (if g1 =? 2 ^ 17 then flat_map z17_up (full_chunks 9 a) else flat_map z19_up (full_chunks 5 a)).
(** [dilithium_poly.c: 574-594] *)
Definition w88_pk (a : list Z) : list Z :=
  match a with
  | [a0; a1; a2; a3] => [u8 a0 .| u8 (a1 <<' 6); u8 (a1 >>' 2) .| u8 (a2 <<' 4); u8 (a2 >>' 4) .| u8 (a3 <<' 2)]
  | _ => []
  end.
Definition w32_pk (a : list Z) : list Z := match a with [a0; a1] => [u8 (a0 .| (a1 <<' 4))] | _ => [] end.
Definition d_polyw1_pack (g2 : Z) (a : list Z) : list Z :=
  if g2 =? (DQ - 1) / 88 then flat_map w88_pk (full_chunks 4 a) else flat_map w32_pk (full_chunks 2 a).
(** packed sizes of one polynomial [lc_dilithium_size.h.in: 120-146] *)
Definition eta_bytes (P : dparam) : nat := if d_eta P =? 2 then 96 else 128.
Definition z_bytes (P : dparam) : nat := if d_g1 P =? 2 ^ 17 then 576 else 640.
Definition w1_bytes (P : dparam) : nat := if d_g2 P =? (DQ - 1) / 88 then 192 else 128.

(** ** Sampling, for any source of bytes: [rd s n] the next n bytes and the state after them *)
(** [dilithium_service_helpers.h: 39-57] *)
Fixpoint d_rej_uniform (len : nat) (buf : list Z) : list Z :=
  match len, buf with
  | S l, b0 :: b1 :: b2 :: buf' =>
      let t := Z.land (b0 .| (b1 <<' 8) .| (b2 <<' 16)) 0x7FFFFF in
      if t <? DQ then t :: d_rej_uniform l buf' else d_rej_uniform len buf'
  | _, _ => []
  end.
(** [dilithium_service_helpers.h: 82-98] one nibble *)
Definition d_eta_nib (eta t : Z) : option Z :=
  if eta =? 2 then if t <? 15 then Some (2 - (t - Z.shiftr (205 * t) 10 * 5)) else None
  else if t <? 9 then Some (4 - t) else None.
(** [dilithium_service_helpers.h: 71-102] *)
Fixpoint d_rej_eta (eta : Z) (len : nat) (buf : list Z) : list Z :=
  match len, buf with
  | S _, b :: buf' =>
      let l0 := match d_eta_nib eta (Z.land b 15) with Some v => [v] | None => [] end in
      let len1 := (len - length l0)%nat in
      let l1 := match d_eta_nib eta (Z.shiftr b 4) with
                | Some v => if (0 <? len1)%nat then [v] else []
                | None => [] end in
      l0 ++ l1 ++ d_rej_eta eta (len1 - length l1) buf'
  | _, _ => []
  end.
Section Sampling.
  Variable St : Type.
  Variable rd : St -> nat -> list Z * St.
  (** [dilithium_poly.c: 95-104]; [used]: the first buflen bytes of buf. 168 bytes are read, of which
      the first 32 (LC_DILITHIUM_SEEDBYTES) are used. None: still running after [fuel] rounds *)
  Fixpoint uniform_loop (fuel : nat) (s : St) (used acc : list Z) : option (list Z) :=
    if (length acc <? 256)%nat then
      match fuel with
      | O => None
      | S f =>
        let off := (length used mod 3)%nat in
        let (o, s') := rd s 168 in
        let used' := firstn (32 + off) (skipn (length used - off) used ++ o) in
        uniform_loop f s' used' (acc ++ d_rej_uniform (256 - length acc) used')
      end
    else Some acc.
  (** [dilithium_poly.c: 88-104] after the seed is absorbed; POLY_UNIFORM_NBLOCKS = 5 *)
  Definition uniform_from (fuel : nat) (s : St) : option (list Z) :=
    let (buf, s) := rd s 840 in uniform_loop fuel s buf (d_rej_uniform 256 buf).
  (** [dilithium_poly.c: 134-139]; [n]: POLY_UNIFORM_ETA_BYTES, of which the first 136 are used *)
  Fixpoint eta_loop (fuel : nat) (eta : Z) (n : nat) (s : St) (acc : list Z) : option (list Z) :=
    if (length acc <? 256)%nat then
      match fuel with
      | O => None
      | S f => let (o, s') := rd s n in
               eta_loop f eta n s' (acc ++ d_rej_eta eta (256 - length acc) (firstn 136 o))
      end
    else Some acc.
  (** [dilithium_poly.h: 161-169] *)
  Definition eta_read (eta : Z) : nat := if eta =? 2 then 136 else 272.
  Definition eta_from (fuel : nat) (eta : Z) (s : St) : option (list Z) :=
    let (buf, s) := rd s (eta_read eta) in eta_loop fuel eta (eta_read eta) s (d_rej_eta eta 256 buf).
  (** [dilithium_poly.c: 199-206] the do loop: the byte b, and buf, pos and the state after it *)
  Fixpoint ch_byte (fuel : nat) (i : nat) (buf : list Z) (pos : nat) (s : St) : option (nat * (list Z * nat * St)) :=
    match fuel with
    | O => None
    | S f =>
      let '(buf, pos, s) := if (136 <=? pos)%nat then let (o, s') := rd s 136 in (o, O, s') else (buf, pos, s) in
      let b := Z.to_nat (nth pos buf 0) in
      if (i <? b)%nat then ch_byte f i buf (S pos) s else Some (b, (buf, S pos, s))
    end.
  (** [dilithium_poly.c: 198-211] [cnt] rounds from i on *)
  Fixpoint ch_loop (fuel cnt i : nat) (signs : Z) (c : list Z) (st : list Z * nat * St) : option (list Z) :=
    match cnt with
    | O => Some c
    | S n =>
      let '(buf, pos, s) := st in
      match ch_byte fuel i buf pos s with
      | None => None
      | Some (b, st') =>
        let c := upd c i (nth b c 0) in
        let c := upd c b (1 - 2 * Z.land signs 1) in
        ch_loop fuel n (S i) (Z.shiftr signs 1) c st'
      end
    end.
  (** [dilithium_poly.c: 187-211] *)
  Definition challenge_from (fuel tau : nat) (s : St) : option (list Z) :=
    let (buf, s) := rd s 136 in
    ch_loop fuel tau (256 - tau) (le_val (firstn 8 buf)) (zeros 256) (buf, 8%nat, s).
End Sampling.

Definition le16 (n : Z) : list Z := [u8 n; u8 (Z.shiftr n 8)].
(** [dilithium_poly.c: 77-107] *)
Definition d_poly_uniform (fuel : nat) (seed : list Z) (nonce : Z) : option (list Z) :=
  uniform_from kctx (xof_read permB) fuel (keccak_updates permB (keccak_init alg_shake128) [seed; le16 nonce]).
(** [dilithium_poly.c: 119-142] *)
Definition d_poly_uniform_eta (fuel : nat) (eta : Z) (seed : list Z) (nonce : Z) : option (list Z) :=
  eta_from kctx (xof_read permB) fuel eta (keccak_updates permB (keccak_init alg_shake256) [seed; le16 nonce]).
(** [dilithium_poly.c: 154-167] 680 bytes are read (POLY_UNIFORM_GAMMA1_NBLOCKS = 5) *)
Definition d_poly_uniform_gamma1 (P : dparam) (seed : list Z) (nonce : Z) : list Z :=
  let buf := fst (xof_read permB (keccak_updates permB (keccak_init alg_shake256) [seed; le16 nonce]) 680) in
  d_polyz_unpack (d_g1 P) (firstn (z_bytes P) buf).
(** [dilithium_poly.c: 177-214] *)
Definition d_poly_challenge (fuel : nat) (P : dparam) (seed : list Z) : option (list Z) :=
  challenge_from kctx (xof_read permB) fuel (d_tau P) (keccak_updates permB (keccak_init alg_shake256) [seed]).

(** ** dilithium_polyvec.h, dilithium_polyvec_c.h *)
Fixpoint zipv {A B C : Type} (f : A -> B -> C) (a : list A) (b : list B) : list C :=
  match a, b with x :: a', y :: b' => f x y :: zipv f a' b' | _, _ => [] end.
(** [dilithium_polyvec_c.h: 27-35, 50-58] *)
Definition d_vec_eta (fuel : nat) (P : dparam) (n : nat) (seed : list Z) (nonce : nat) : option (list (list Z)) :=
  traverse (map (fun i => d_poly_uniform_eta fuel (d_eta P) seed (u16 (Z.of_nat (nonce + i)))) (seq 0 n)).
(** [dilithium_polyvec_c.h: 37-48] *)
Definition d_vec_gamma1 (P : dparam) (seed : list Z) (nonce : Z) : list (list Z) :=
  map (fun i => d_poly_uniform_gamma1 P seed (u16 (Z.of_nat (d_l P) * nonce + Z.of_nat i))) (seq 0 (d_l P)).
(** [dilithium_polyvec_c.h: 69-81] *)
Definition d_matrix_expand (fuel : nat) (P : dparam) (rho : list Z) : option (list (list (list Z))) :=
  traverse (map (fun i => traverse (map (fun j =>
    d_poly_uniform fuel rho (u16 (Z.of_nat i * 256 + Z.of_nat j))) (seq 0 (d_l P)))) (seq 0 (d_k P))).
(** [dilithium_polyvec_c.h: 93-105] *)
Fixpoint d_acc_loop (w : list Z) (u v : list (list Z)) : list Z :=
  match u, v with
  | x :: u', y :: v' => d_acc_loop (d_add w (d_pointwise x y)) u' v'
  | _, _ => w
  end.
Definition d_acc (u v : list (list Z)) : list Z :=
  match u, v with x :: u', y :: v' => d_acc_loop (d_pointwise x y) u' v' | _, _ => [] end.
(** [dilithium_polyvec_c.h: 107-117] *)
Definition d_matvec (mat : list (list (list Z))) (v : list (list Z)) : list (list Z) := map (fun row => d_acc row v) mat.
(** [dilithium_polyvec.h: 60-367] the element-wise functions of vectors *)
Definition v_ntt := map d_ntt.
Definition v_invntt := map d_invntt.
Definition v_reduce := map d_reduce.
Definition v_caddq := map d_caddqs.
Definition v_shiftl := map d_shiftl.
Definition v_add := zipv d_add.
Definition v_sub := zipv d_sub.
Definition v_chknorm (B : Z) (v : list (list Z)) : bool := existsb (d_chknorm B) v.
Definition v_pointwise_poly (c : list Z) (v : list (list Z)) : list (list Z) := map (d_pointwise c) v.
Definition v_high (g2 : Z) (v : list (list Z)) : list (list Z) := map (map (fun a => fst (d_decompose g2 a))) v.
Definition v_low (g2 : Z) (v : list (list Z)) : list (list Z) := map (map (fun a => snd (d_decompose g2 a))) v.
Definition v_p2r_high (v : list (list Z)) : list (list Z) := map (map (fun a => fst (d_power2round a))) v.
Definition v_p2r_low (v : list (list Z)) : list (list Z) := map (map (fun a => snd (d_power2round a))) v.
Definition v_make_hint (g2 : Z) (v0 v1 : list (list Z)) : list (list Z) := zipv (zip2 (d_make_hint g2)) v0 v1.
(** the number of ones, the return value of polyveck_make_hint [dilithium_poly.h: 124-135] *)
Definition v_count (h : list (list Z)) : Z := fold_right Z.add 0 (map (fold_right Z.add 0) h).
Definition v_use_hint (g2 : Z) (w h : list (list Z)) : list (list Z) := zipv (zip2 (d_use_hint g2)) w h.
Definition v_pack_w1 (g2 : Z) (w1 : list (list Z)) : list Z := flat_map (d_polyw1_pack g2) w1.

(** ** dilithium_pack.h *)
(** [dilithium_pack.h: 213-220] the inner loop: coefficients from index j on *)
Fixpoint ph_coeffs (cs : list Z) (j k : nat) (b : list Z) : nat * list Z :=
  match cs with
  | [] => (k, b)
  | c :: cs' => if c =? 0 then ph_coeffs cs' (S j) k b else ph_coeffs cs' (S j) (S k) (upd b k (u8 (Z.of_nat j)))
  end.
Fixpoint ph_polys (omega : nat) (h : list (list Z)) (i k : nat) (b : list Z) : list Z :=
  match h with
  | [] => b
  | p :: h' => let (k, b) := ph_coeffs p 0 k b in
               ph_polys omega h' (S i) k (upd b (omega + i) (u8 (Z.of_nat k)))
  end.
Definition d_pack_h (P : dparam) (h : list (list Z)) : list Z :=
  ph_polys (d_omega P) h 0 0 (zeros (d_omega P + d_k P)).
(** [dilithium_pack.h: 195-221] *)
Definition d_pack_sig (P : dparam) (c : list Z) (z h : list (list Z)) : list Z :=
  c ++ flat_map (d_polyz_pack (d_g1 P)) z ++ d_pack_h P h.
(** [dilithium_pack.h: 233-242] *)
Definition d_unpack_z (P : dparam) (sg : list Z) : list (list Z) :=
  map (d_polyz_unpack (d_g1 P)) (cut (d_l P) (z_bytes P) (skipn (d_ct P) sg)).
(** [dilithium_pack.h: 274-279] j from k up to (not including) lim *)
Fixpoint uh_coeffs (cnt j k : nat) (b : list Z) (h : list Z) : option (list Z) :=
  match cnt with
  | O => Some h
  | S n => if (k <? j)%nat && (nth j b 0 <=? nth (j - 1) b 0) then None
           else uh_coeffs n (S j) k b (upd h (Z.to_nat (nth j b 0)) 1)
  end.
(** [dilithium_pack.h: 266-282] *)
Fixpoint uh_polys (omega cnt i k : nat) (b : list Z) : option (list (list Z) * nat) :=
  match cnt with
  | O => Some ([], k)
  | S n =>
    let e := Z.to_nat (nth (omega + i) b 0) in
    if (e <? k)%nat || (omega <? e)%nat then None
    else match uh_coeffs (e - k) k k b (zeros 256) with
         | None => None
         | Some p => match uh_polys omega n (S i) e b with
                     | None => None
                     | Some (ps, k') => Some (p :: ps, k')
                     end
         end
  end.
(** [dilithium_pack.h: 256-290] None: malformed *)
Definition d_unpack_hb (P : dparam) (b : list Z) : option (list (list Z)) :=
  match uh_polys (d_omega P) (d_k P) 0 0 b with
  | None => None
  | Some (h, k) => if forallb (fun j => nth j b 0 =? 0) (seq k (d_omega P - k)) then Some h else None
  end.
Definition d_unpack_h (P : dparam) (sg : list Z) : option (list (list Z)) :=
  d_unpack_hb P (slice sg (d_ct P + d_l P * z_bytes P) (d_omega P + d_k P)).

(** [dilithium_pack.h: 40-76] *)
Definition d_pack_pk (rho : list Z) (t1 : list (list Z)) : list Z := rho ++ flat_map d_polyt1_pack t1.
Definition d_unpack_pk_t1 (P : dparam) (pk : list Z) : list (list Z) := map d_polyt1_unpack (cut (d_k P) 320 (skipn 32 pk)).
(** [dilithium_pack.h: 78-181] *)
Definition d_pack_sk (P : dparam) (rho key tr : list Z) (s1 s2 t0 : list (list Z)) : list Z :=
  rho ++ key ++ tr ++ flat_map (d_polyeta_pack (d_eta P)) s1 ++ flat_map (d_polyeta_pack (d_eta P)) s2 ++ flat_map d_polyt0_pack t0.
Definition d_sk_rho (sk : list Z) : list Z := firstn 32 sk.
Definition d_sk_key (sk : list Z) : list Z := slice sk 32 32.
Definition d_sk_tr (sk : list Z) : list Z := slice sk 64 64.
Definition d_sk_s1 (P : dparam) (sk : list Z) : list (list Z) :=
  map (d_polyeta_unpack (d_eta P)) (cut (d_l P) (eta_bytes P) (skipn 128 sk)).
Definition d_sk_s2 (P : dparam) (sk : list Z) : list (list Z) :=
  map (d_polyeta_unpack (d_eta P)) (cut (d_k P) (eta_bytes P) (skipn (128 + d_l P * eta_bytes P) sk)).
Definition d_sk_t0 (P : dparam) (sk : list Z) : list (list Z) :=
  map d_polyt0_unpack (cut (d_k P) 416 (skipn (128 + d_l P * eta_bytes P + d_k P * eta_bytes P) sk)).

(** ** dilithium_signature_impl.h *)
Definition shake256_of (ms : list (list Z)) (n : nat) : list Z :=
  fst (xof_read permB (keccak_updates permB (keccak_init alg_shake256) ms) n).

(** [dilithium_signature_impl.h: 62-215] [seed]: the 32 bytes obtained from the RNG *)
Definition d_keypair (fuel : nat) (P : dparam) (seed : list Z) : option (list Z * list Z) :=
  let seedbuf := shake256_of [seed; [Z.of_nat (d_k P); Z.of_nat (d_l P)]] 128 in
  let rho := slice seedbuf 0 32 in
  let rhoprime := slice seedbuf 32 64 in
  let key := slice seedbuf 96 32 in
  match d_vec_eta fuel P (d_l P) rhoprime 0, d_vec_eta fuel P (d_k P) rhoprime (d_l P), d_matrix_expand fuel P rho with
  | Some s1, Some s2, Some mat =>
    let t := v_reduce (d_matvec mat (v_ntt s1)) in
    let t := v_caddq (v_add (v_invntt t) s2) in
    let t0 := v_p2r_low t in
    let t1 := v_p2r_high t in
    let pk := d_pack_pk rho t1 in
    let tr := shake256_of [pk] 64 in
    Some (pk, d_pack_sk P rho key tr s1 s2 t0)
  | _, _, _ => None
  end.
(** [dilithium_signature_impl.h: 217-238] return code, public key, secret key *)
Definition d_keypair_from_seed (fuel : nat) (P : dparam) (seed : list Z) : option (Z * list Z * list Z) :=
  if negb (length seed =? 32)%nat then Some (- EINVAL, [], [])
  else match d_keypair fuel P seed with Some (pk, sk) => Some (0, pk, sk) | None => None end.

(** [dilithium_signature_impl.h: 337-438] one round; None: the challenge sampler is out of fuel,
    Some None: goto rej *)
Definition d_sign_round (fuel : nat) (P : dparam) (mat : list (list (list Z))) (s1 s2 t0 : list (list Z))
    (mu rhoprime : list Z) (nonce : Z) : option (option (list Z)) :=
  let y := d_vec_gamma1 P rhoprime nonce in
  let w := v_caddq (v_invntt (v_reduce (d_matvec mat (v_ntt y)))) in
  let w0 := v_low (d_g2 P) w in
  let w1 := v_high (d_g2 P) w in
  let ctilde := shake256_of [mu; v_pack_w1 (d_g2 P) w1] (d_ct P) in
  match d_poly_challenge fuel P ctilde with
  | None => None
  | Some c =>
    let cp := d_ntt c in
    let z := v_reduce (v_add (v_invntt (v_pointwise_poly cp s1)) y) in
    if v_chknorm (d_g1 P - d_beta P) z then Some None else
    let h := v_invntt (v_pointwise_poly cp s2) in
    let w0 := v_reduce (v_sub w0 h) in
    if v_chknorm (d_g2 P - d_beta P) w0 then Some None else
    let h := v_reduce (v_invntt (v_pointwise_poly cp t0)) in
    if v_chknorm (d_g2 P) h then Some None else
    let w0 := v_add w0 h in
    let h := v_make_hint (d_g2 P) w0 w1 in
    if Z.of_nat (d_omega P) <? v_count h then Some None else
    Some (Some (d_pack_sig P ctilde z h))
  end.
(** the loop around [rej]; at most [rounds] rounds are modelled *)
Fixpoint d_sign_loop (rounds fuel : nat) (P : dparam) (mat : list (list (list Z))) (s1 s2 t0 : list (list Z))
    (mu rhoprime : list Z) (nonce : Z) : option (list Z) :=
  match rounds with
  | O => None
  | S r => match d_sign_round fuel P mat s1 s2 t0 mu rhoprime nonce with
           | None => None
           | Some (Some sg) => Some sg
           | Some None => d_sign_loop r fuel P mat s1 s2 t0 mu rhoprime (u16 (nonce + 1))
           end
  end.

(** struct lc_dilithium_ctx [lc_dilithium_size.h.in: 181-249]. dilithium_hash_ctx is a SHAKE256 context,
    as every initializer of the structure makes it ([LC_DILITHIUM_CTX_INIT_HASH]); [x_ahat]: what the
    caller's matrix buffer holds, None: ahat is NULL *)
Record dctx := mkDctx { x_hash : kctx; x_prehash : option prehash; x_userctx : list Z; x_ahat : option (list (list (list Z)));
  x_ahat_size : Z; x_composite : bool; x_internal : bool; x_expanded : bool }.
Definition set_hash (c : dctx) (h : kctx) : dctx :=
  mkDctx h (x_prehash c) (x_userctx c) (x_ahat c) (x_ahat_size c) (x_composite c) (x_internal c) (x_expanded c).
Definition set_ahat (c : dctx) (a : list (list (list Z))) : dctx :=
  mkDctx (x_hash c) (x_prehash c) (x_userctx c) (Some a) (x_ahat_size c) (x_composite c) (x_internal c) true.
(** [lc_dilithium_size.h.in: 376-385] *)
Definition d_ctx_zero (c : dctx) : dctx :=
  mkDctx (keccak_init alg_shake256) (x_prehash c) (x_userctx c)
    (match x_ahat c with Some m => Some (map (map (fun p => zeros (length p))) m) | None => None end)
    (x_ahat_size c) (x_composite c) (x_internal c) (match x_ahat c with Some _ => false | None => x_expanded c end).
(** sizeof(polyvecl) * K *)
Definition ahat_bytes (P : dparam) : Z := 1024 * Z.of_nat (d_k P) * Z.of_nat (d_l P).
Definition EOVERFLOW : Z := 75.
Definition EBADMSG_d : Z := 74.

(** [dilithium_signature_impl.h: 240-446] result code, signature. [rng]: None for a NULL RNG context,
    otherwise what lc_rng_generate returns and delivers. *)
Definition d_sign_internal_ahat (rounds fuel : nat) (P : dparam) (mat : list (list (list Z))) (sk : list Z) (h : kctx)
    (rng : option (Z * list Z)) : option (Z * list Z) :=
  let mu := fst (xof_read permB h 64) in
  let '(ret, rnd) := match rng with Some (r, b) => (r, b) | None => (0, zeros 32) end in
  if ret <? 0 then Some (ret, []) else
  let rhoprime := shake256_of [d_sk_key sk ++ rnd ++ mu] 64 in
  let s1 := v_ntt (d_sk_s1 P sk) in
  let s2 := v_ntt (d_sk_s2 P sk) in
  let t0 := v_ntt (d_sk_t0 P sk) in
  match d_sign_loop rounds fuel P mat s1 s2 t0 mu rhoprime 0 with
  | Some sg => Some (0, sg)
  | None => None
  end.
(** [dilithium_signature_impl.h: 475-529, 792-834] sk_expand and pk_expand: [key] begins with rho *)
Definition d_expand (fuel : nat) (P : dparam) (key : list Z) (c : dctx) : option (Z * dctx) :=
  if x_ahat_size c <? ahat_bytes P then Some (- EOVERFLOW, c)
  else match d_matrix_expand fuel P (firstn 32 key) with
       | None => None
       | Some m => Some (0, set_ahat c m)
       end.
(** [dilithium_signature_impl.h: 531-548] with noahat [448-473] *)
Definition d_sign_internal (rounds fuel : nat) (P : dparam) (sk : list Z) (c : dctx) (rng : option (Z * list Z)) : option (Z * list Z * dctx) :=
  match x_ahat c with
  | None => match d_matrix_expand fuel P (firstn 32 sk) with
            | None => None
            | Some m => match d_sign_internal_ahat rounds fuel P m sk (x_hash c) rng with
                        | Some (r, sg) => Some (r, sg, c)
                        | None => None
                        end
            end
  | Some m =>
    let after (c : dctx) := match x_ahat c with
      | None => None
      | Some m => match d_sign_internal_ahat rounds fuel P m sk (x_hash c) rng with
                  | Some (r, sg) => Some (r, sg, c)
                  | None => None
                  end
      end in
    if x_expanded c then after c
    else match d_expand fuel P sk c with
         | None => None
         | Some (r, c') => if r <? 0 then Some (r, [], c') else after c'
         end
  end.
(** init of the hash with tr, then the domain separation: [568-580], [624-632], [877-883], [927-934].
    The pieces signature_domain_separation hashes are given to the hash as one piece. *)
Definition d_start (P : dparam) (tr m : list Z) (c : dctx) : Z * dctx :=
  let '(r, b) := signature_domain_separation (x_internal c) (x_prehash c) (x_userctx c) m (d_cat P) (x_composite c) in
  (r, set_hash c (keccak_updates permB (keccak_init alg_shake256) [tr; b])).
(** [dilithium_signature_impl.h: 550-587] *)
Definition d_sign_ctx (rounds fuel : nat) (P : dparam) (c : dctx) (m sk : list Z) (rng : option (Z * list Z)) : option (Z * list Z * dctx) :=
  let '(r, c) := d_start P (d_sk_tr sk) m c in
  if r <? 0 then Some (r, [], c) else d_sign_internal rounds fuel P sk c rng.
(** LC_DILITHIUM_CTX_ON_STACK [lc_dilithium_size.h.in: 284-316] *)
Definition d_ctx_stack : dctx := mkDctx (keccak_init alg_shake256) None [] None 0 false false false.
(** LC_DILITHIUM_xx_CTX_ON_STACK_AHAT [lc_dilithium_size.h.in: 350-364]; the buffer holds arbitrary data *)
Definition d_ctx_stack_ahat (P : dparam) (junk : list (list (list Z))) : dctx :=
  mkDctx (keccak_init alg_shake256) None [] (Some junk) (ahat_bytes P) false false false.
(** [dilithium_signature_impl.h: 589-600] *)
Definition d_sign (rounds fuel : nat) (P : dparam) (m sk : list Z) (rng : option (Z * list Z)) : option (Z * list Z) :=
  match d_sign_ctx rounds fuel P d_ctx_stack m sk rng with Some (r, sg, _) => Some (r, sg) | None => None end.
(** [dilithium_signature_impl.h: 602-633] *)
Definition d_sign_init (P : dparam) (c : dctx) (sk : list Z) : Z * dctx := d_start P (d_sk_tr sk) [] c.
(** [dilithium_signature_impl.h: 635-645, 937-950] *)
Definition d_update (c : dctx) (m : list Z) : dctx := set_hash c (keccak_absorb permB (x_hash c) m).
(** [dilithium_signature_impl.h: 647-665] *)
Definition d_sign_final (rounds fuel : nat) (P : dparam) (c : dctx) (sk : list Z) (rng : option (Z * list Z)) : option (Z * list Z * dctx) :=
  match d_sign_internal rounds fuel P sk c rng with
  | Some (r, sg, c') => Some (r, sg, d_ctx_zero c')
  | None => None
  end.

Section Verify.
  (** addresses of the two buffers compared by lc_memcmp_secure *)
  Variables ad1 ad2 : Z.
  (** [dilithium_signature_impl.h: 667-763] result code, and whether LC_RELEASE_MEM was reached *)
  Definition d_verify_internal_ahat (fuel : nat) (P : dparam) (mat : list (list (list Z))) (sg pk : list Z) (h : kctx)
      : option (Z * bool) :=
    let c1 := firstn (d_ct P) sg in
    let z := d_unpack_z P sg in
    if v_chknorm (d_g1 P - d_beta P) z then Some (- EINVAL, true) else
    let w1 := d_matvec mat (v_ntt z) in
    match d_poly_challenge fuel P c1 with
    | None => None
    | Some c =>
      let cp := d_ntt c in
      let t1 := v_pointwise_poly cp (v_ntt (v_shiftl (d_unpack_pk_t1 P pk))) in
      let w1 := v_caddq (v_invntt (v_reduce (v_sub w1 t1))) in
      match d_unpack_h P sg with
      | None => Some (- EINVAL, false)
      | Some hh =>
        let w1 := v_use_hint (d_g2 P) w1 hh in
        let mu := fst (xof_read permB h 64) in
        let c2 := shake256_of [mu; v_pack_w1 (d_g2 P) w1] (d_ct P) in
        Some (if lc_memcmp_secure ad1 c1 ad2 c2 =? 0 then 0 else - EBADMSG_d, true)
      end
    end.
  (** [dilithium_signature_impl.h: 836-852] with noahat [765-790] *)
  Definition d_verify_internal (fuel : nat) (P : dparam) (sg pk : list Z) (c : dctx) : option (Z * bool * dctx) :=
    match x_ahat c with
    | None => match d_matrix_expand fuel P (firstn 32 pk) with
              | None => None
              | Some m => match d_verify_internal_ahat fuel P m sg pk (x_hash c) with
                          | Some (r, b) => Some (r, b, c)
                          | None => None
                          end
              end
    | Some m =>
      let after (c : dctx) := match x_ahat c with
        | None => None
        | Some m => match d_verify_internal_ahat fuel P m sg pk (x_hash c) with
                    | Some (r, b) => Some (r, b, c)
                    | None => None
                    end
        end in
      if x_expanded c then after c
      else match d_expand fuel P pk c with
           | None => None
           | Some (r, c') => if r <? 0 then Some (r, true, c') else after c'
           end
    end.
  (** [dilithium_signature_impl.h: 854-890] *)
  Definition d_verify_ctx (fuel : nat) (P : dparam) (sg : list Z) (c : dctx) (m pk : list Z) : option (Z * bool * dctx) :=
    let tr := shake256_of [pk] 64 in
    let '(r, c) := d_start P tr m c in
    if r <? 0 then Some (r, true, c) else d_verify_internal fuel P sg pk c.
  (** [dilithium_signature_impl.h: 892-901] *)
  Definition d_verify (fuel : nat) (P : dparam) (sg m pk : list Z) : option Z :=
    match d_verify_ctx fuel P sg d_ctx_stack m pk with Some (r, _, _) => Some r | None => None end.
  (** [dilithium_signature_impl.h: 903-935] *)
  Definition d_verify_init (P : dparam) (c : dctx) (pk : list Z) : Z * dctx := d_start P (shake256_of [pk] 64) [] c.
  (** [dilithium_signature_impl.h: 952-968] *)
  Definition d_verify_final (fuel : nat) (P : dparam) (sg : list Z) (c : dctx) (pk : list Z) : option (Z * bool * dctx) :=
    match d_verify_internal fuel P sg pk c with
    | Some (r, b, c') => Some (r, b, d_ctx_zero c')
    | None => None
    end.
End Verify.
