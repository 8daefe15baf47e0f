(** AES-128 (tiny-AES model): encryption inverts decryption. *)
From Verif Require Import Base ListLemmas XorLin Aes AesProofs.
From Coq Require Import Btauto.

Lemma mixc_imixc a b c d :
  mixc (imixc a b c d) (imixc b c d a) (imixc c d a b) (imixc d a b c) = a.
Proof.
  unfold imixc. rewrite !mul9, !mul11, !mul13, !mul14. unfold mixc. rewrite !xtime_lxor.
  xor_ac.
Qed.

Lemma mix_columns_inv st : length st = 16%nat -> MixColumns (InvMixColumns st) = st.
Proof.
  intros H. rewrite (list16 st H) at 2. unfold InvMixColumns. cbv zeta.
  rewrite !inv_mix_column_eq. cbn [app]. unfold MixColumns. cbn [nth]. cbv beta zeta.
  rewrite !mix_column_eq, !mixc_imixc. reflexivity.
Qed.

Lemma shift_sub st : blk st -> ShiftRows (SubBytes (InvSubBytes (InvShiftRows st))) = st.
Proof.
  intros H. rewrite sub_bytes_inv by (apply blk_inv_shift; auto). apply shift_rows_inv, H.
Qed.

Lemma rounds_fwd rk : rkey rk -> forall n i s, (i + n <= 11)%nat -> blk s ->
  let s' := fold_left (dec_round rk) (rev (seq i n)) s in
  blk s' /\
  fold_left (enc_round rk) (seq i n) (InvSubBytes (InvShiftRows s')) = InvSubBytes (InvShiftRows s).
Proof.
  intros Hk. induction n; intros i s Hi Hs; cbn [seq fold_left rev]; [auto|].
  destruct (IHn (S i) s ltac:(lia) Hs) as [B E]. rewrite fold_left_app. cbn [fold_left].
  set (u := fold_left (dec_round rk) (rev (seq (S i) n)) s) in *.
  split; [apply dec_round_blk; auto; lia|]. rewrite <- E. f_equal.
  assert (BT : blk (InvSubBytes (InvShiftRows u))) by (apply blk_inv_sub, blk_inv_shift; auto).
  assert (BA : blk (AddRoundKey i (InvSubBytes (InvShiftRows u)) rk)) by (apply blk_ark; auto; lia).
  unfold enc_round, dec_round. rewrite shift_sub by (apply blk_inv_mix; auto).
  rewrite mix_columns_inv by apply BA. apply ark_ark; auto; try lia; apply BT.
Qed.

Lemma Cipher_InvCipher st rk : rkey rk -> blk st -> Cipher (InvCipher st rk) rk = st.
Proof.
  intros Hk Hs. unfold InvCipher, Cipher. cbv zeta.
  assert (H0 : blk (AddRoundKey 10 st rk)) by (apply blk_ark; auto; lia).
  destruct (rounds_fwd rk Hk 9 1 (AddRoundKey 10 st rk) ltac:(lia) H0) as [B E].
  rewrite ark_ark; auto; try lia; try (apply blk_inv_sub, blk_inv_shift; auto).
  rewrite E. rewrite shift_sub by auto. apply ark_ark; auto; apply Hs.
Qed.

Lemma ecb_fwd key b : blk key -> blk b -> aes_ecb_encrypt key (aes_ecb_decrypt key b) = b.
Proof. intros. apply Cipher_InvCipher; auto. apply rkey_expand; auto. Qed.

Lemma cbc_fwd rk : rkey rk -> forall n iv data, blk iv -> bytes data -> length data = (16 * n)%nat ->
  cbc_enc rk iv n (cbc_dec rk iv n data) = data.
Proof.
  intros Hk. induction n; intros iv data Hiv Hb Hl; cbn [cbc_enc cbc_dec]; [reflexivity|].
  cbv zeta.
  assert (Bf : blk (firstn 16 data)).
  { split; [rewrite firstn_length; lia|apply bytes_firstn; auto]. }
  assert (Bi : blk (InvCipher (firstn 16 data) rk)) by (apply blk_inv_cipher; auto).
  assert (Bx : blk (xorl (InvCipher (firstn 16 data) rk) iv)) by (apply blk_xorl; auto).
  rewrite firstn_app_exact by apply Bx. rewrite skipn_app_exact by apply Bx.
  rewrite xorl_invol by (destruct Bi as [-> _], Hiv as [-> _]; lia).
  rewrite Cipher_InvCipher by auto.
  rewrite IHn; auto.
  - apply firstn_skipn.
  - apply bytes_skipn; auto.
  - rewrite skipn_length. lia.
Qed.

Lemma aes_cbc_fwd key iv data n : blk key -> blk iv -> bytes data -> length data = (16 * n)%nat ->
  aes_cbc_encrypt key iv (aes_cbc_decrypt key iv data) = data.
Proof.
  intros Hk Hi Hb Hl. unfold aes_cbc_encrypt.
  destruct (cbc_decrypt_shape n key iv data) as [A _]; auto. rewrite A.
  unfold aes_cbc_decrypt. rewrite (div16 data n) by auto. apply cbc_fwd; auto. apply rkey_expand; auto.
Qed.
