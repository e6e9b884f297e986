(** The address setters of the library against the ADRS of FIPS 205, and the hash calls. *)
From Verif Require Import Bytes Words ZUtil KeccakModel Sha3Model KeccakBytes Fips202 KyberModel KyberSample KyberKem DilithiumModel
  DilithiumSample DilithiumScheme DilithiumHint SphincsModel SlhSpec.

Definition wfA (A : ADRS) : Prop :=
  0 <= A_layer A < 256 /\ 0 <= A_tree A < 2 ^ 64 /\ 0 <= A_type A < 256 /\ 0 <= A_w1 A < 2 ^ 32 /\ 0 <= A_w2 A < 256 /\ 0 <= A_w3 A < 2 ^ 32.

Lemma small_hi : forall x k, 0 <= x < 256 -> 0 < k -> (x / 256 ^ k) mod 256 = 0.
Proof.
  intros x k Hx Hk. rewrite Z.div_small; [reflexivity|]. split; [lia|]. apply Z.lt_le_trans with (256 ^ 1); [lia|]. apply Z.pow_le_mono_r; lia.
Qed.
Lemma tree_hi : forall x k, 0 <= x < 2 ^ 64 -> 8 <= k -> (x / 256 ^ k) mod 256 = 0.
Proof.
  intros x k Hx Hk. rewrite Z.div_small; [reflexivity|]. split; [lia|]. apply Z.lt_le_trans with (256 ^ 8); [lia|]. apply Z.pow_le_mono_r; lia.
Qed.
Lemma toByte_len : forall x n, length (toByte x n) = n.
Proof. intros. unfold toByte. rewrite map_length, seq_length. reflexivity. Qed.
Lemma toByte_bytes : forall x n, bytes (toByte x n).
Proof. intros. apply Forall_forall. intros y H. apply in_map_iff in H. destruct H as (i & <- & _). apply Z.mod_pos_bound. lia. Qed.
Lemma adrs_len : forall A, length (adrs_bytes A) = 32%nat.
Proof. reflexivity. Qed.
Lemma adrs_isbytes : forall A, bytes (adrs_bytes A).
Proof. intros. unfold adrs_bytes. repeat apply bytes_app; apply toByte_bytes. Qed.

Lemma be4_toByte : forall x, be_bytes 4 x = toByte x 4.
Proof.
  intros. unfold be_bytes, toByte. cbn [le_bytes rev app seq map Nat.sub Z.of_nat Pos.of_succ_nat Pos.succ].
  repeat rewrite Z.div_div by lia. change (256 ^ 0) with 1. rewrite Z.div_1_r. reflexivity.
Qed.
Lemma ull_le_ok : forall n x, ull_le n x = le_bytes n x.
Proof.
  induction n; intros; cbn [ull_le le_bytes]; [reflexivity|]. rewrite IHn. f_equal. change 0xff with (Z.ones 8). rewrite Z.land_ones by lia. reflexivity.
  rewrite Z.shiftr_div_pow2 by lia. reflexivity.
Qed.
Lemma ull_be : forall n x, ull_to_bytes n x = be_bytes n x.
Proof. intros. unfold ull_to_bytes, be_bytes. rewrite ull_le_ok. reflexivity. Qed.
Lemma be8_toByte : forall x, be_bytes 8 x = toByte x 8.
Proof.
  intros. unfold be_bytes, toByte. cbn [le_bytes rev app seq map Nat.sub Z.of_nat Pos.of_succ_nat Pos.succ].
  repeat rewrite Z.div_div by lia. change (256 ^ 0) with 1. rewrite Z.div_1_r. reflexivity.
Qed.

(** ** setters *)
Lemma toByte_1 : forall x, 0 <= x < 256 -> toByte x 4 = [0; 0; 0; x].
Proof.
  intros x H. unfold toByte. cbn [seq map Nat.sub Z.of_nat Pos.of_succ_nat Pos.succ].
  rewrite !small_hi by lia. change (256 ^ 0) with 1. rewrite Z.div_1_r, Z.mod_small by lia. reflexivity.
Qed.
Lemma toByte_12 : forall x, 0 <= x < 2 ^ 64 -> toByte x 12 = [0; 0; 0; 0] ++ toByte x 8.
Proof.
  intros x H. unfold toByte. cbn [seq map Nat.sub Z.of_nat Pos.of_succ_nat Pos.succ app]. rewrite !tree_hi by lia. reflexivity.
Qed.
Lemma adr0_ok : adr0 = adrs_bytes (mkADRS 0 0 0 0 0 0).
Proof. reflexivity. Qed.
Ltac four x := let a := fresh "b" in let b := fresh "b" in let c := fresh "b" in let d := fresh "b" in let E := fresh "E" in
  destruct (toByte x 4) as [|a [|b [|c [|d [|]]]]] eqn:E; try (apply (f_equal (@length Z)) in E; rewrite toByte_len in E; discriminate E); clear E.
Ltac u8e := match goal with |- context [u8 ?x] => replace (u8 x) with x by (unfold u8; rewrite Z.mod_small; lia) end.

Lemma toByte8_dest : forall x, exists a b c d e f g h, toByte x 8 = [a; b; c; d; e; f; g; h].
Proof. intros. unfold toByte. cbn [seq map]. repeat eexists. Qed.
Lemma toByte4_dest : forall x, exists a b c d, toByte x 4 = [a; b; c; d].
Proof. intros. unfold toByte. cbn [seq map]. repeat eexists. Qed.

Lemma set_layer_ok : forall A x, wfA A -> 0 <= x < 256 ->
  set_layer_addr (adrs_bytes A) x = adrs_bytes (mkADRS x (A_tree A) (A_type A) (A_w1 A) (A_w2 A) (A_w3 A)).
Proof.
  intros A x W Hx. destruct W as (? & ? & ? & ? & ? & ?). unfold set_layer_addr, adrs_bytes. cbn [A_layer A_tree A_type A_w1 A_w2 A_w3].
  rewrite (toByte_1 x), (toByte_1 (A_layer A)) by auto. u8e. reflexivity.
Qed.
Lemma set_tree_ok : forall A x, wfA A -> 0 <= x < 2 ^ 64 ->
  set_tree_addr (adrs_bytes A) x = adrs_bytes (mkADRS (A_layer A) x (A_type A) (A_w1 A) (A_w2 A) (A_w3 A)).
Proof.
  intros A x W Hx. destruct W as (? & ? & ? & ? & ? & ?). unfold set_tree_addr, adrs_bytes. cbn [A_layer A_tree A_type A_w1 A_w2 A_w3].
  rewrite (toByte_12 x), (toByte_12 (A_tree A)) by auto. rewrite ull_be, be8_toByte. rewrite (toByte_1 (A_layer A)) by auto.
  destruct (toByte8_dest x) as (a & b & c & d & e & f & g & h & ->). destruct (toByte8_dest (A_tree A)) as (a' & b' & c' & d' & e' & f' & g' & h' & ->). reflexivity.
Qed.
Ltac dest := repeat match goal with
  | |- context [toByte ?x 8] => let H := fresh in destruct (toByte8_dest x) as (? & ? & ? & ? & ? & ? & ? & ? & H); rewrite ?H; clear H
  | |- context [toByte ?x 4] => let H := fresh in destruct (toByte4_dest x) as (? & ? & ? & ? & H); rewrite ?H; clear H
  end.
Ltac setter := unfold adrs_bytes; cbn [A_layer A_tree A_type A_w1 A_w2 A_w3];
  rewrite ?be4_toByte; rewrite ?toByte_12 by auto.
Lemma set_type_ok : forall A x, wfA A -> 0 <= x < 256 ->
  set_type (adrs_bytes A) x = adrs_bytes (mkADRS (A_layer A) (A_tree A) x (A_w1 A) (A_w2 A) (A_w3 A)).
Proof.
  intros A x W Hx. destruct W as (? & ? & ? & ? & ? & ?). unfold set_type. setter. rewrite (toByte_1 x), (toByte_1 (A_type A)) by auto. u8e. dest. reflexivity.
Qed.
Lemma set_keypair_ok : forall A x, wfA A ->
  set_keypair_addr (adrs_bytes A) x = adrs_bytes (mkADRS (A_layer A) (A_tree A) (A_type A) x (A_w2 A) (A_w3 A)).
Proof. intros A x W. destruct W as (? & ? & ? & ? & ? & ?). unfold set_keypair_addr. setter. dest. reflexivity. Qed.
Lemma set_chain_ok : forall A x, wfA A -> 0 <= x < 256 ->
  set_chain_addr (adrs_bytes A) x = adrs_bytes (mkADRS (A_layer A) (A_tree A) (A_type A) (A_w1 A) x (A_w3 A)).
Proof.
  intros A x W Hx. destruct W as (? & ? & ? & ? & ? & ?). unfold set_chain_addr. setter. rewrite (toByte_1 x), (toByte_1 (A_w2 A)) by auto. u8e. dest. reflexivity.
Qed.
Lemma set_height_ok : forall A x, wfA A -> 0 <= x < 256 ->
  set_tree_height (adrs_bytes A) x = adrs_bytes (mkADRS (A_layer A) (A_tree A) (A_type A) (A_w1 A) x (A_w3 A)).
Proof. exact set_chain_ok. Qed.
Lemma set_hash_ok : forall A x, wfA A -> 0 <= A_w3 A < 256 -> 0 <= x < 256 ->
  set_hash_addr (adrs_bytes A) x = adrs_bytes (mkADRS (A_layer A) (A_tree A) (A_type A) (A_w1 A) (A_w2 A) x).
Proof.
  intros A x W H3 Hx. destruct W as (? & ? & ? & ? & ? & ?). unfold set_hash_addr. setter. rewrite (toByte_1 x), (toByte_1 (A_w3 A)) by auto. u8e. dest. reflexivity.
Qed.
Lemma set_index_ok : forall A x, wfA A ->
  set_tree_index (adrs_bytes A) x = adrs_bytes (mkADRS (A_layer A) (A_tree A) (A_type A) (A_w1 A) (A_w2 A) x).
Proof. intros A x W. destruct W as (? & ? & ? & ? & ? & ?). unfold set_tree_index. setter. dest. reflexivity. Qed.
Lemma copy_subtree_ok : forall A B, wfA A -> wfA B ->
  copy_subtree_addr (adrs_bytes A) (adrs_bytes B) = adrs_bytes (mkADRS (A_layer B) (A_tree B) (A_type A) (A_w1 A) (A_w2 A) (A_w3 A)).
Proof.
  intros A B W V. destruct W as (? & ? & ? & ? & ? & ?). destruct V as (? & ? & ? & ? & ? & ?). unfold copy_subtree_addr. setter. dest. reflexivity.
Qed.
Lemma copy_keypair_ok : forall A B, wfA A -> wfA B ->
  copy_keypair_addr (adrs_bytes A) (adrs_bytes B) = adrs_bytes (mkADRS (A_layer B) (A_tree B) (A_type A) (A_w1 B) (A_w2 A) (A_w3 A)).
Proof.
  intros A B W V. destruct W as (? & ? & ? & ? & ? & ?). destruct V as (? & ? & ? & ? & ? & ?). unfold copy_keypair_addr. setter. dest. reflexivity.
Qed.

Definition wfB (l t ty kp : Z) : Prop := 0 <= l < 256 /\ 0 <= t < 2 ^ 64 /\ 0 <= ty < 256 /\ 0 <= kp < 2 ^ 32.
Lemma wfB_A : forall l t ty kp a b, wfB l t ty kp -> 0 <= a < 256 -> 0 <= b < 2 ^ 32 -> wfA (mkADRS l t ty kp a b).
Proof. intros l t ty kp a b (? & ? & ? & ?) ? ?. unfold wfA. cbn [A_layer A_tree A_type A_w1 A_w2 A_w3]. lia. Qed.

(** ** nodes and hash calls *)
Definition node (n : nat) (x : list Z) : Prop := bytes x /\ length x = n.
Lemma nodes_concat : forall n l, Forall (node n) l -> bytes (concat l) /\ length (concat l) = (length l * n)%nat.
Proof.
  induction l; intros F; cbn [concat length]. split; [constructor|lia]. inversion F as [|? ? [B L] F']; subst. destruct (IHl F') as [B' L'].
  split. apply bytes_app; auto. rewrite app_length. lia.
Qed.
Lemma node_app : forall n x y, node n x -> node n y -> bytes (x ++ y) /\ length (x ++ y) = (2 * n)%nat.
Proof. intros n x y [B L] [B' L']. split. apply bytes_app; auto. rewrite app_length. lia. Qed.

Section Hash.
  Variable P : sparam.
  Variable p : slhp.
  Hypothesis Hn : f_n p = sp_n P.
  Hypothesis Hn32 : (sp_n P <= 32)%nat.
  Variables pub sk : list Z.
  Hypothesis Bpub : node (sp_n P) pub.
  Hypothesis Bsk : node (sp_n P) sk.
  Lemma thash_ok : forall A x, bytes x -> Z.of_nat (length x) < 2 ^ 60 -> thash P pub (adrs_bytes A) x = T_l p pub A x.
  Proof.
    intros A x B L. unfold thash, T_l. destruct Bpub as [Bp Lp]. rewrite shake256_of_ok.
    - cbn [concat]. rewrite app_nil_r, Hn. reflexivity.
    - apply Forall_cons; [auto|]. apply Forall_cons; [apply adrs_isbytes|]. apply Forall_cons; [auto|constructor].
    - cbn [concat]. rewrite !app_length, adrs_len, Lp. cbn [length]. lia.
  Qed.
  Lemma prf_ok : forall A, prf_addr P pub sk (adrs_bytes A) = SlhSpec.PRF p pub sk A.
  Proof.
    intros A. unfold prf_addr, SlhSpec.PRF. destruct Bpub as [Bp Lp]. destruct Bsk as [Bs Ls]. rewrite shake256_of_ok.
    - cbn [concat]. rewrite app_nil_r, Hn. reflexivity.
    - apply Forall_cons; [auto|]. apply Forall_cons; [apply adrs_isbytes|]. apply Forall_cons; [auto|constructor].
    - cbn [concat]. rewrite !app_length, adrs_len, Lp, Ls. cbn [length]. lia.
  Qed.
  Lemma T_node : forall A x, bytes x -> node (sp_n P) (T_l p pub A x).
  Proof.
    intros A x B. unfold T_l. split. apply SHAKE256_bytes. apply bytes_app; [apply Bpub|]. apply bytes_app; [apply adrs_isbytes|auto]. rewrite SHAKE256_len. apply Hn.
  Qed.
  Lemma PRF_node : forall A, node (sp_n P) (SlhSpec.PRF p pub sk A).
  Proof.
    intros A. unfold SlhSpec.PRF. split. apply SHAKE256_bytes. apply bytes_app; [apply Bpub|]. apply bytes_app; [apply adrs_isbytes|apply Bsk]. rewrite SHAKE256_len. apply Hn.
  Qed.
End Hash.
