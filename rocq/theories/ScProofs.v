(** Secure channel primitives: padding, data block and MAC facts. *)
From Verif Require Import Base ListLemmas XorLin Aes AesProofs Rb Types Sc.
Ltac Zify.zify_post_hook ::= Z.div_mod_to_equations.

Lemma aes_pad_len_bounds x : 0 <= x -> x <= aes_pad_len x < x + 16 /\ aes_pad_len x mod 16 = 0.
Proof. unfold aes_pad_len. lia. Qed.

Lemma pad_data_length data :
  exists n, length (pad_data data) = (16 * n)%nat /\ (length data < 16 * n <= length data + 16)%nat.
Proof.
  exists (Z.to_nat (aes_pad_len (zlen data + 1) / 16)).
  pose proof (aes_pad_len_bounds (zlen data + 1)) as [A B]; [unfold zlen; lia|].
  unfold pad_data. rewrite !app_length, length_zeros. simpl length. unfold zlen in *. lia.
Qed.

Lemma bytes_pad_data data : bytes data -> bytes (pad_data data).
Proof.
  intros. unfold pad_data. apply bytes_app; split; auto. apply bytes_app; split; [|apply bytes_zeros].
  bytes_cons. unfold EOM, byte; lia.
Qed.

Lemma rev_zeros n : rev (zeros n) = zeros n.
Proof.
  unfold zeros. induction n; simpl; auto. rewrite IHn. clear IHn.
  induction n; simpl; auto. f_equal. exact IHn.
Qed.

Lemma eom_rev_zeros k r : eom_rev (zeros k ++ EOM :: r) = Some (length r).
Proof.
  induction k as [|k IH]; [reflexivity|].
  change (zeros (S k) ++ EOM :: r) with (0 :: (zeros k ++ EOM :: r)).
  cbn [eom_rev]. change (0 =? EOM) with false. change (0 =? 0) with true. cbv iota.
  destruct (zeros k ++ EOM :: r) eqn:E; [|exact IH].
  destruct k; discriminate E.
Qed.

Lemma eom_pad data : eom_rev (rev (pad_data data)) = Some (length data).
Proof.
  unfold pad_data. rewrite !rev_app_distr, rev_zeros. cbn [rev app].
  rewrite <- app_assoc. cbn [app]. rewrite eom_rev_zeros. now rewrite rev_length.
Qed.

Lemma upd_app_exact {A} (a : list A) x v b : upd (length a) v (a ++ x :: b) = a ++ v :: b.
Proof. induction a; simpl; auto. f_equal; auto. Qed.

Definition sc_keys_ok (s : schan) : Prop :=
  blk (s_enc s) /\ blk (s_mac1 s) /\ blk (s_mac2 s) /\ blk (r_mac s) /\ blk (c_mac s).

Lemma blk_data_iv is_cmd s : blk (r_mac s) -> blk (c_mac s) -> blk (data_iv is_cmd s).
Proof.
  intros [A B] [C D]. unfold data_iv. destruct is_cmd; split;
    rewrite ?map_length; auto; apply bytes_map_inv8; auto.
Qed.

Lemma encrypt_data_length is_cmd s data : sc_keys_ok s -> bytes data ->
  zlen (encrypt_data is_cmd s data) = aes_pad_len (zlen data + 1) /\ bytes (encrypt_data is_cmd s data).
Proof.
  intros (K & _ & _ & R & C) B. destruct (pad_data_length data) as (n & Hn & Hb).
  unfold encrypt_data.
  destruct (aes_cbc_ok (s_enc s) (data_iv is_cmd s) (pad_data data) n) as [A1 A2]; auto.
  - apply blk_data_iv; auto.
  - apply bytes_pad_data; auto.
  - split; auto. pose proof (aes_pad_len_bounds (zlen data + 1)) as [X Y]; [unfold zlen; lia|].
    unfold zlen in *. rewrite A1, Hn. lia.
Qed.

(* C06 *)
Lemma decrypt_encrypt is_cmd empty_ok s1 s2 data :
  sc_keys_ok s1 -> s_enc s2 = s_enc s1 -> r_mac s2 = r_mac s1 -> c_mac s2 = c_mac s1 ->
  bytes data ->
  exists d, decrypt_data is_cmd empty_ok s2 (encrypt_data is_cmd s1 data) = Some (d, zlen data) /\
            firstn (length data) d = data /\
            length d = length (encrypt_data is_cmd s1 data) /\ bytes d.
Proof.
  intros K E1 E2 E3 B. pose proof (encrypt_data_length is_cmd s1 data K B) as [EL EB].
  pose proof (aes_pad_len_bounds (zlen data + 1)) as [PL PM]; [unfold zlen; lia|].
  unfold decrypt_data. rewrite EL.
  replace (Z.rem (aes_pad_len (zlen data + 1)) 16) with 0.
  2:{ rewrite Z.rem_mod_nonneg by (unfold zlen in *; lia). lia. }
  destruct (Z.eqb_spec (aes_pad_len (zlen data + 1)) 0) as [Z0|Z0]; [unfold zlen in *; lia|].
  simpl negb. cbv iota.
  assert (Hiv : data_iv is_cmd s2 = data_iv is_cmd s1) by (unfold data_iv; rewrite E2, E3; auto).
  rewrite Hiv, E1. unfold encrypt_data.
  destruct (pad_data_length data) as (n & Hn & Hb).
  destruct K as (K1 & K2 & K3 & K4 & K5).
  rewrite (aes_cbc_inv (s_enc s1) (data_iv is_cmd s1) (pad_data data) n); auto.
  2:{ apply blk_data_iv; auto. }
  2:{ apply bytes_pad_data; auto. }
  rewrite eom_pad. eexists; split; [reflexivity|]. split; [|split].
  - unfold pad_data. cbn [app]. rewrite upd_app_exact. apply firstn_app_exact. reflexivity.
  - rewrite upd_length.
    destruct (aes_cbc_ok (s_enc s1) (data_iv is_cmd s1) (pad_data data) n) as [A1 A2]; auto.
    + apply blk_data_iv; auto.
    + apply bytes_pad_data; auto.
  - apply bytes_upd; [apply bytes_pad_data; auto|apply byte_0].
Qed.

(* MAC *)
Lemma mac_pad_ok data : data <> [] -> bytes data ->
  exists n, length (mac_pad data) = (16 * S n)%nat /\ bytes (mac_pad data).
Proof.
  intros Hne B. unfold mac_pad.
  assert (0 < zlen data) by (destruct data; [congruence|unfold zlen; simpl; lia]).
  rewrite Z.rem_mod_nonneg by lia.
  destruct (Z.eqb_spec (zlen data mod 16) 0).
  - exists (Z.to_nat (zlen data / 16 - 1)). split; auto. unfold zlen in *. lia.
  - pose proof (aes_pad_len_bounds (zlen data)) as [A C]; [lia|].
    exists (Z.to_nat (aes_pad_len (zlen data) / 16 - 1)). split.
    + rewrite !app_length, length_zeros. simpl length. unfold zlen in *. lia.
    + apply bytes_app; split; auto. apply bytes_app; split; [bytes_cons; unfold byte; lia|].
      apply bytes_zeros.
Qed.

Lemma blk_mac_of k1 k2 iv data : blk k1 -> blk k2 -> blk iv -> data <> [] -> bytes data ->
  blk (mac_of k1 k2 iv data).
Proof.
  intros B1 B2 Bi Hne B. destruct (mac_pad_ok data Hne B) as (n & Hl & Hb).
  unfold mac_of. cbv zeta. unfold zlen. rewrite Hl.
  set (b := mac_pad data) in *.
  assert (Biv : blk (if 16 <? Z.of_nat (16 * S n) then
            from (aes_cbc_encrypt k1 iv (firstn (Z.to_nat (Z.of_nat (16 * S n) - 16)) b))
                 (Z.of_nat (16 * S n) - 32) else iv)).
  { destruct (Z.ltb_spec 16 (Z.of_nat (16 * S n))); auto.
    destruct (aes_cbc_ok k1 iv (firstn (Z.to_nat (Z.of_nat (16 * S n) - 16)) b) n) as [A C]; auto.
    - apply bytes_firstn; auto.
    - rewrite firstn_length. lia.
    - split; [|apply bytes_skipn; auto]. unfold from. rewrite skipn_length, A, firstn_length. lia. }
  assert (Bl : blk (from b (Z.of_nat (16 * S n) - 16))).
  { split; [unfold from; rewrite skipn_length; lia|apply bytes_skipn; auto]. }
  destruct (aes_cbc_ok k2 _ (from b (Z.of_nat (16 * S n) - 16)) 1 B2 Biv) as [A C]; try apply Bl.
  split; auto. rewrite A. apply Bl.
Qed.
