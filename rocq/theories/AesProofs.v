(** AES-128 (tiny-AES model): decryption inverts encryption. *)
From Verif Require Import Base ListLemmas XorLin Aes.
From Coq Require Import Btauto.

(* S-box *)
Definition sbox_sweep : bool :=
  forallb (fun n => let b := Z.of_nat n in
    (inv_sub_byte (sub_byte b) =? b) && (0 <=? sub_byte b) && (sub_byte b <? 256)
    && (sub_byte (inv_sub_byte b) =? b) && (0 <=? inv_sub_byte b) && (inv_sub_byte b <? 256))
    (seq 0 256).
Lemma sbox_sweep_ok : sbox_sweep = true.
Proof. vm_compute. reflexivity. Qed.

Lemma sbox_facts b : byte b ->
  inv_sub_byte (sub_byte b) = b /\ byte (sub_byte b) /\
  sub_byte (inv_sub_byte b) = b /\ byte (inv_sub_byte b).
Proof.
  intros H. pose proof sbox_sweep_ok as S. unfold sbox_sweep in S. rewrite forallb_forall in S.
  specialize (S (Z.to_nat b)). cbv zeta in S. unfold byte in *. rewrite Z2Nat.id in S by lia.
  rewrite !andb_true_iff in S. destruct S as [[[[[S1 S2] S3] S4] S5] S6]; [apply in_seq; lia|].
  apply Z.eqb_eq in S1, S4. apply Z.leb_le in S2, S5. apply Z.ltb_lt in S3, S6. auto.
Qed.

Lemma list16 (st : list Z) : length st = 16%nat ->
  st = map (fun i => nth i st 0) (seq 0 16).
Proof.
  intros H. do 16 (destruct st as [|? st]; [discriminate H|]).
  destruct st; [reflexivity|discriminate H].
Qed.

Lemma inv_shift_rows st : length st = 16%nat -> InvShiftRows (ShiftRows st) = st.
Proof. intros H. rewrite (list16 st H) at 2. reflexivity. Qed.

Lemma shift_rows_inv st : length st = 16%nat -> ShiftRows (InvShiftRows st) = st.
Proof. intros H. rewrite (list16 st H) at 2. reflexivity. Qed.

Lemma inv_sub_bytes st : bytes st -> InvSubBytes (SubBytes st) = st.
Proof.
  intros H. unfold InvSubBytes, SubBytes. rewrite map_map.
  rewrite <- (map_id st) at 2. apply map_ext_in. intros a Ha.
  apply sbox_facts. eapply Forall_forall in H; eauto.
Qed.

Lemma sub_bytes_inv st : bytes st -> SubBytes (InvSubBytes st) = st.
Proof.
  intros H. unfold InvSubBytes, SubBytes. rewrite map_map.
  rewrite <- (map_id st) at 2. apply map_ext_in. intros a Ha.
  apply sbox_facts. eapply Forall_forall in H; eauto.
Qed.

(* xtime is linear *)
Lemma land1_cases y : Z.land y 1 = Z.b2z (Z.testbit y 0).
Proof.
  change 1 with (Z.ones 1). rewrite Z.land_ones by lia. change (2 ^ 1) with 2.
  symmetry. apply Z.bit0_mod.
Qed.

Lemma xtime_lxor a b : xtime (Z.lxor a b) = Z.lxor (xtime a) (xtime b).
Proof.
  unfold xtime, u8. change 256 with (2 ^ 8). rewrite <- mod_lxor by lia. f_equal.
  rewrite Z.shiftl_lxor, shiftr_lxor, !land1_cases, Z.lxor_spec.
  destruct (Z.testbit (Z.shiftr a 7) 0), (Z.testbit (Z.shiftr b 7) 0); simpl xorb; simpl Z.b2z;
    change (0 * 27) with 0; change (1 * 27) with 27; xor_ac.
Qed.

Lemma byte_xtime x : byte (xtime x).
Proof. apply byte_u8. Qed.

Lemma mul9 x : Multiply x 9 = Z.lxor x (xtime (xtime (xtime x))).
Proof.
  unfold Multiply. cbv zeta. change (Z.land 9 1) with 1. change (Z.land (Z.shiftr 9 1) 1) with 0.
  change (Z.land (Z.shiftr 9 2) 1) with 0. change (Z.land (Z.shiftr 9 3) 1) with 1.
  change (Z.land (Z.shiftr 9 4) 1) with 0. rewrite !Z.mul_1_l, !Z.mul_0_l, !Z.lxor_0_r. reflexivity.
Qed.
Lemma mul11 x : Multiply x 11 = Z.lxor (Z.lxor x (xtime x)) (xtime (xtime (xtime x))).
Proof.
  unfold Multiply. cbv zeta. change (Z.land 11 1) with 1. change (Z.land (Z.shiftr 11 1) 1) with 1.
  change (Z.land (Z.shiftr 11 2) 1) with 0. change (Z.land (Z.shiftr 11 3) 1) with 1.
  change (Z.land (Z.shiftr 11 4) 1) with 0. rewrite !Z.mul_1_l, !Z.mul_0_l, !Z.lxor_0_r. reflexivity.
Qed.
Lemma mul13 x : Multiply x 13 = Z.lxor (Z.lxor x (xtime (xtime x))) (xtime (xtime (xtime x))).
Proof.
  unfold Multiply. cbv zeta. change (Z.land 13 1) with 1. change (Z.land (Z.shiftr 13 1) 1) with 0.
  change (Z.land (Z.shiftr 13 2) 1) with 1. change (Z.land (Z.shiftr 13 3) 1) with 1.
  change (Z.land (Z.shiftr 13 4) 1) with 0. rewrite !Z.mul_1_l, !Z.mul_0_l, !Z.lxor_0_r. reflexivity.
Qed.
Lemma mul14 x : Multiply x 14 = Z.lxor (Z.lxor (xtime x) (xtime (xtime x))) (xtime (xtime (xtime x))).
Proof.
  unfold Multiply. cbv zeta. change (Z.land 14 1) with 0. change (Z.land (Z.shiftr 14 1) 1) with 1.
  change (Z.land (Z.shiftr 14 2) 1) with 1. change (Z.land (Z.shiftr 14 3) 1) with 1.
  change (Z.land (Z.shiftr 14 4) 1) with 0.
  rewrite !Z.mul_1_l, !Z.mul_0_l, !Z.lxor_0_r, Z.lxor_0_l. reflexivity.
Qed.

(* one column *)
Definition mixc (a b c d : Z) : Z :=
  Z.lxor (Z.lxor (Z.lxor (Z.lxor (xtime a) (xtime b)) b) c) d.

Lemma mix_column_eq a b c d : mix_column a b c d = [mixc a b c d; mixc b c d a; mixc c d a b; mixc d a b c].
Proof.
  unfold mix_column, mixc. cbv zeta. rewrite !xtime_lxor. do 4 (apply (f_equal2 (@cons Z)); [xor_ac|]). reflexivity.
Qed.

Definition imixc (a b c d : Z) : Z :=
  Z.lxor (Z.lxor (Z.lxor (Multiply a 14) (Multiply b 11)) (Multiply c 13)) (Multiply d 9).

Lemma inv_mix_column_eq a b c d :
  inv_mix_column a b c d = [imixc a b c d; imixc b c d a; imixc c d a b; imixc d a b c].
Proof. unfold inv_mix_column, imixc. do 4 (apply (f_equal2 (@cons Z)); [xor_ac|]). reflexivity. Qed.

Lemma imixc_mixc a b c d :
  imixc (mixc a b c d) (mixc b c d a) (mixc c d a b) (mixc d a b c) = a.
Proof.
  unfold imixc. rewrite mul9, mul11, mul13, mul14. unfold mixc. rewrite !xtime_lxor.
  xor_ac.
Qed.

Lemma inv_mix_column_mix a b c d :
  match mix_column a b c d with
  | [x; y; z; t] => inv_mix_column x y z t = [a; b; c; d]
  | _ => False
  end.
Proof.
  rewrite mix_column_eq, inv_mix_column_eq. rewrite !imixc_mixc. reflexivity.
Qed.

Lemma inv_mix_columns st : length st = 16%nat -> InvMixColumns (MixColumns st) = st.
Proof.
  intros H. rewrite (list16 st H) at 2. unfold MixColumns. cbv zeta.
  rewrite !mix_column_eq. cbn [app]. unfold InvMixColumns. cbn [nth]. cbv beta.
  rewrite !inv_mix_column_eq, !imixc_mixc. reflexivity.
Qed.

(* sizes and ranges *)
Definition blk (l : list Z) : Prop := length l = 16%nat /\ bytes l.

Lemma byte_mixc a b c d : byte a -> byte b -> byte c -> byte d -> byte (mixc a b c d).
Proof. intros. unfold mixc. repeat apply byte_lxor; auto; apply byte_xtime. Qed.

Lemma blk_mix st : blk st -> blk (MixColumns st).
Proof.
  intros [Hl Hb]. unfold MixColumns. cbv zeta. rewrite !mix_column_eq. split; [reflexivity|].
  cbn [app]. bytes_cons; apply byte_mixc; apply bytes_nth; auto.
Qed.

Lemma byte_imixc a b c d : byte a -> byte b -> byte c -> byte d -> byte (imixc a b c d).
Proof.
  intros. unfold imixc. rewrite mul9, mul11, mul13, mul14.
  repeat apply byte_lxor; auto; apply byte_xtime.
Qed.

Lemma blk_inv_mix st : blk st -> blk (InvMixColumns st).
Proof.
  intros [Hl Hb]. unfold InvMixColumns. cbv zeta. rewrite !inv_mix_column_eq. split; [reflexivity|].
  cbn [app]. bytes_cons; apply byte_imixc; apply bytes_nth; auto.
Qed.

Lemma blk_shift st : blk st -> blk (ShiftRows st).
Proof.
  intros [Hl Hb]. unfold ShiftRows. split; [reflexivity|]. cbn [map].
  bytes_cons; apply bytes_nth; auto.
Qed.

Lemma blk_inv_shift st : blk st -> blk (InvShiftRows st).
Proof.
  intros [Hl Hb]. unfold InvShiftRows. split; [reflexivity|]. cbn [map].
  bytes_cons; apply bytes_nth; auto.
Qed.

Lemma blk_sub st : blk st -> blk (SubBytes st).
Proof.
  intros [Hl Hb]. unfold SubBytes. split; [now rewrite map_length|].
  apply Forall_map. eapply Forall_impl; [|exact Hb]. intros; apply sbox_facts; auto.
Qed.

Lemma blk_inv_sub st : blk st -> blk (InvSubBytes st).
Proof.
  intros [Hl Hb]. unfold InvSubBytes. split; [now rewrite map_length|].
  apply Forall_map. eapply Forall_impl; [|exact Hb]. intros; apply sbox_facts; auto.
Qed.

Definition rkey (rk : list Z) : Prop := length rk = 176%nat /\ bytes rk.

Lemma rk_slice rk r : rkey rk -> (r <= 10)%nat -> blk (firstn 16 (skipn (r * 16) rk)).
Proof.
  intros [Hl Hb] Hr. split; [rewrite firstn_length, skipn_length; lia|].
  apply bytes_firstn, bytes_skipn; auto.
Qed.

Lemma blk_xorl a b : blk a -> blk b -> blk (xorl a b).
Proof. intros [? ?] [? ?]. split; [rewrite xorl_length; lia|apply bytes_xorl; auto]. Qed.

Lemma blk_ark r st rk : rkey rk -> (r <= 10)%nat -> blk st -> blk (AddRoundKey r st rk).
Proof. intros. apply blk_xorl; auto. apply rk_slice; auto. Qed.

Lemma ark_ark r st rk : rkey rk -> (r <= 10)%nat -> length st = 16%nat ->
  AddRoundKey r (AddRoundKey r st rk) rk = st.
Proof. intros. unfold AddRoundKey. apply xorl_invol. pose proof (rk_slice rk r) as [-> _]; auto. lia. Qed.

Lemma key_step_ok rk i : (4 <= i)%nat -> length rk = (4 * i)%nat -> bytes rk ->
  length (key_step rk i) = (4 * S i)%nat /\ bytes (key_step rk i).
Proof.
  intros Hi Hl Hb. unfold key_step. cbv zeta.
  assert (N : forall j, byte (nth j rk 0)) by (intros; apply bytes_nth; auto).
  assert (R : forall j, byte (nth j Rcon 0)).
  { intros; apply bytes_nth. unfold Rcon. bytes_cons; unfold byte; lia. }
  destruct (Nat.eqb (Nat.modulo i 4) 0).
  - split; [rewrite app_length; cbn [length]; lia|]. apply bytes_app; split; auto.
    bytes_cons; repeat apply byte_lxor; auto; apply sbox_facts; auto.
  - split; [rewrite app_length; cbn [length]; lia|]. apply bytes_app; split; auto.
    bytes_cons; repeat apply byte_lxor; auto.
Qed.

Lemma key_fold n : forall i rk, (4 <= i)%nat -> length rk = (4 * i)%nat -> bytes rk ->
  length (fold_left key_step (seq i n) rk) = (4 * (i + n))%nat /\
  bytes (fold_left key_step (seq i n) rk).
Proof.
  induction n; intros i rk Hi Hl Hb; cbn [seq fold_left]; [split; auto; lia|].
  destruct (key_step_ok rk i) as [Hl' Hb']; auto.
  specialize (IHn (S i) (key_step rk i) ltac:(lia) Hl' Hb'). destruct IHn as [A B]. split; auto. lia.
Qed.

Lemma rkey_expand key : blk key -> rkey (KeyExpansion key).
Proof.
  intros [Hl Hb]. unfold KeyExpansion. destruct (key_fold 40 4 key) as [A B]; auto. split; auto.
Qed.

Lemma enc_round_blk rk st r : rkey rk -> (r <= 10)%nat -> blk st -> blk (enc_round rk st r).
Proof. intros. unfold enc_round. apply blk_ark; auto. apply blk_mix, blk_shift, blk_sub; auto. Qed.

Lemma dec_round_blk rk st r : rkey rk -> (r <= 10)%nat -> blk st -> blk (dec_round rk st r).
Proof. intros. unfold dec_round. apply blk_inv_mix, blk_ark; auto. apply blk_inv_sub, blk_inv_shift; auto. Qed.

Lemma isub_ishift st : blk st -> InvSubBytes (InvShiftRows (ShiftRows (SubBytes st))) = st.
Proof.
  intros H. rewrite inv_shift_rows by (apply blk_sub; auto). apply inv_sub_bytes, H.
Qed.

(* the decryption rounds undo the encryption rounds *)
Lemma rounds_inv rk : rkey rk -> forall n i s, (i + n <= 11)%nat -> blk s ->
  let s' := fold_left (enc_round rk) (seq i n) s in
  blk s' /\
  fold_left (dec_round rk) (rev (seq i n)) (ShiftRows (SubBytes s')) = ShiftRows (SubBytes s).
Proof.
  intros Hk. induction n; intros i s Hi Hs; cbn [seq fold_left rev]; [auto|].
  pose proof (enc_round_blk rk s i Hk ltac:(lia) Hs) as Hb.
  specialize (IHn (S i) (enc_round rk s i) ltac:(lia) Hb). destruct IHn as [B E]. split; auto.
  rewrite fold_left_app. rewrite E. cbn [fold_left].
  unfold dec_round. rewrite isub_ishift by auto. unfold enc_round.
  assert (Hm : blk (MixColumns (ShiftRows (SubBytes s)))) by (apply blk_mix, blk_shift, blk_sub; auto).
  rewrite ark_ark by (auto; try lia; apply Hm).
  apply inv_mix_columns. apply blk_shift, blk_sub; auto.
Qed.

Lemma blk_cipher st rk : rkey rk -> blk st -> blk (Cipher st rk).
Proof.
  intros Hk Hs. unfold Cipher. cbv zeta. apply blk_ark; auto. apply blk_shift, blk_sub.
  apply (rounds_inv rk Hk 9 1); auto. apply blk_ark; auto. lia.
Qed.

Lemma InvCipher_Cipher st rk : rkey rk -> blk st -> InvCipher (Cipher st rk) rk = st.
Proof.
  intros Hk Hs. unfold InvCipher, Cipher. cbv zeta.
  assert (H0 : blk (AddRoundKey 0 st rk)) by (apply blk_ark; auto; lia).
  destruct (rounds_inv rk Hk 9 1 (AddRoundKey 0 st rk) ltac:(lia) H0) as [B E].
  rewrite ark_ark; auto; try lia; try (apply blk_shift, blk_sub; auto).
  rewrite E. rewrite isub_ishift by auto. apply ark_ark; auto; [lia|apply Hs].
Qed.

Lemma ecb_inv key b : blk key -> blk b -> aes_ecb_decrypt key (aes_ecb_encrypt key b) = b.
Proof. intros. apply InvCipher_Cipher; auto. apply rkey_expand; auto. Qed.

Lemma blk_ecb key b : blk key -> blk b -> blk (aes_ecb_encrypt key b).
Proof. intros. apply blk_cipher; auto. apply rkey_expand; auto. Qed.

(* CBC *)
Lemma cbc_enc_ok rk : rkey rk -> forall n iv data, blk iv -> bytes data -> length data = (16 * n)%nat ->
  length (cbc_enc rk iv n data) = (16 * n)%nat /\ bytes (cbc_enc rk iv n data).
Proof.
  intros Hk. induction n; intros iv data Hiv Hb Hl; cbn [cbc_enc]; [split; auto|].
  assert (Bf : blk (firstn 16 data)).
  { split; [rewrite firstn_length; lia|apply bytes_firstn; auto]. }
  assert (Bc : blk (Cipher (xorl (firstn 16 data) iv) rk)) by (apply blk_cipher; auto; apply blk_xorl; auto).
  destruct (IHn (Cipher (xorl (firstn 16 data) iv) rk) (skipn 16 data)) as [A B]; auto.
  - apply bytes_skipn; auto.
  - rewrite skipn_length. lia.
  - cbv zeta. rewrite app_length. destruct Bc as [C1 C2]. split; [lia|].
    apply bytes_app; auto.
Qed.

Lemma cbc_inv rk : rkey rk -> forall n iv data, blk iv -> bytes data -> length data = (16 * n)%nat ->
  cbc_dec rk iv n (cbc_enc rk iv n data) = data.
Proof.
  intros Hk. induction n; intros iv data Hiv Hb Hl; cbn [cbc_enc cbc_dec]; [reflexivity|].
  cbv zeta.
  assert (Bf : blk (firstn 16 data)).
  { split; [rewrite firstn_length; lia|apply bytes_firstn; auto]. }
  assert (Bx : blk (xorl (firstn 16 data) iv)) by (apply blk_xorl; auto).
  assert (Bc : blk (Cipher (xorl (firstn 16 data) iv) rk)) by (apply blk_cipher; auto).
  rewrite firstn_app_exact by apply Bc. rewrite skipn_app_exact by apply Bc.
  rewrite InvCipher_Cipher by auto.
  rewrite xorl_invol by (destruct Bf as [-> _], Hiv as [-> _]; lia).
  rewrite IHn; auto.
  - apply firstn_skipn.
  - apply bytes_skipn; auto.
  - rewrite skipn_length. lia.
Qed.

Lemma div16 (l : list Z) n : length l = (16 * n)%nat -> (length l / 16)%nat = n.
Proof. intros ->. rewrite Nat.mul_comm. apply Nat.div_mul. lia. Qed.

Lemma aes_cbc_ok key iv data n : blk key -> blk iv -> bytes data -> length data = (16 * n)%nat ->
  length (aes_cbc_encrypt key iv data) = length data /\ bytes (aes_cbc_encrypt key iv data).
Proof.
  intros. unfold aes_cbc_encrypt. rewrite (div16 data n) by auto.
  destruct (cbc_enc_ok (KeyExpansion key) (rkey_expand key H) n iv data) as [A B]; auto.
  split; auto. lia.
Qed.

Lemma aes_cbc_inv key iv data n : blk key -> blk iv -> bytes data -> length data = (16 * n)%nat ->
  aes_cbc_decrypt key iv (aes_cbc_encrypt key iv data) = data.
Proof.
  intros Hk Hi Hb Hl. unfold aes_cbc_decrypt.
  destruct (aes_cbc_ok key iv data n) as [A _]; auto. rewrite A.
  unfold aes_cbc_encrypt. rewrite (div16 data n) by auto. apply cbc_inv; auto. apply rkey_expand; auto.
Qed.

(* shape of what decryption returns *)
Lemma dec_rounds_blk rk : rkey rk -> forall l s, (forall r, In r l -> (r <= 10)%nat) -> blk s ->
  blk (fold_left (dec_round rk) l s).
Proof.
  intros Hk. induction l; intros s Hl Hs; cbn [fold_left]; auto. apply IHl.
  - intros; apply Hl; right; auto.
  - apply dec_round_blk; auto. apply Hl; left; auto.
Qed.

Lemma blk_inv_cipher st rk : rkey rk -> blk st -> blk (InvCipher st rk).
Proof.
  intros Hk Hs. unfold InvCipher. cbv zeta. apply blk_ark; auto; [lia|]. apply blk_inv_sub, blk_inv_shift.
  apply dec_rounds_blk; auto.
  - intros r H. apply in_rev in H. apply in_seq in H. lia.
  - apply blk_ark; auto.
Qed.

Lemma cbc_decrypt_shape n key iv data : blk key -> blk iv -> bytes data -> length data = (16 * n)%nat ->
  length (aes_cbc_decrypt key iv data) = length data /\ bytes (aes_cbc_decrypt key iv data).
Proof.
  intros Hk. unfold aes_cbc_decrypt. pose proof (rkey_expand key Hk) as Rk. generalize dependent (KeyExpansion key).
  intros rk Rk. intros Hi Hb Hl. rewrite (div16 data n) by auto. rewrite Hl. revert iv data Hi Hb Hl.
  induction n; intros iv data Hi Hb Hl; cbn [cbc_dec]; [split; auto|].
  assert (Bf : blk (firstn 16 data)).
  { split; [rewrite firstn_length; lia|apply bytes_firstn; auto]. }
  destruct (IHn (firstn 16 data) (skipn 16 data)) as [A B]; auto.
  - apply bytes_skipn; auto.
  - rewrite skipn_length. lia.
  - cbv zeta. assert (Bx : blk (xorl (InvCipher (firstn 16 data) rk) iv)) by (apply blk_xorl; auto; apply blk_inv_cipher; auto).
    destruct Bx as [X1 X2]. split; [rewrite app_length; lia|]. apply bytes_app; auto.
Qed.
