(** The MAC and the data block cipher of the code are those of the specification. *)
From Verif Require Import Base ListLemmas Aes AesProofs Rb Types Sc ScProofs SpecSec.
From Coq Require Import ZifyBool ZifyNat.
Ltac Zify.zify_post_hook ::= Z.div_mod_to_equations.

Local Opaque Cipher KeyExpansion.

Lemma enc1_eq k b : enc1 k b = Cipher b (KeyExpansion k).
Proof. reflexivity. Qed.

Lemma blk_enc1 k b : blk k -> blk b -> blk (enc1 k b).
Proof. intros. apply blk_ecb; auto. Qed.
Local Opaque enc1.

Lemma cut16_app n : forall a b, length a = (16 * n)%nat -> cut16 n (a ++ b) = cut16 n a.
Proof.
  induction n as [|n IH]; intros a b L; cbn [cut16]; auto.
  rewrite firstn_app, skipn_app. replace (16 - length a)%nat with 0%nat by lia.
  rewrite firstn_O, app_nil_r, skipn_O. f_equal. rewrite IH; [auto|]. rewrite skipn_length. lia.
Qed.

Lemma cut16_snoc n : forall a b, length a = (16 * n)%nat -> length b = 16%nat -> cut16 (S n) (a ++ b) = cut16 n a ++ [b].
Proof.
  induction n as [|n IH]; intros a b L Lb.
  - destruct a; simpl in L; [|lia]. cbn [cut16 app]. rewrite firstn_all2 by lia. reflexivity.
  - cbn [cut16]. cbn [app]. rewrite firstn_app. replace (16 - length a)%nat with 0%nat by lia.
    rewrite firstn_O, app_nil_r. f_equal. rewrite skipn_app. replace (16 - length a)%nat with 0%nat by lia.
    rewrite skipn_O. rewrite <- IH; auto. rewrite skipn_length. lia.
Qed.

Lemma cbc_enc_chain k n : forall iv d, length d = (16 * n)%nat ->
  cbc_enc (KeyExpansion k) iv n d = concat (cbc_chain k iv (cut16 n d)).
Proof.
  induction n as [|n IH]; intros iv d L; cbn [cbc_enc cut16 cbc_chain concat].
  - destruct d; simpl in L; auto; lia.
  - rewrite enc1_eq. f_equal. apply IH. rewrite skipn_length. lia.
Qed.

Lemma aes_cbc_chain k iv d n : length d = (16 * n)%nat ->
  aes_cbc_encrypt k iv d = concat (cbc_chain k iv (blocks16 d)).
Proof.
  intros L. unfold aes_cbc_encrypt, blocks16. rewrite (div16 d n L). apply cbc_enc_chain; auto.
Qed.

Lemma last_default {A} (l : list A) (x d : A) : l <> [] -> last l d = last l x.
Proof.
  induction l as [|y l IH]; [congruence|]. intros _. destruct l as [|z l]; auto.
  change (last (z :: l) d = last (z :: l) x). apply IH. discriminate.
Qed.

Lemma last_cons_d {A} (x d : A) l : last (x :: l) d = last l x.
Proof.
  destruct l as [|y l]; auto. change (last (y :: l) d = last (y :: l) x). apply last_default. discriminate.
Qed.

Lemma mac_chain_snoc k1 k2 b bs : forall iv,
  mac_chain k1 k2 iv (bs ++ [b]) = enc1 k2 (xorl b (last (cbc_chain k1 iv bs) iv)).
Proof.
  induction bs as [|a bs IH]; intros iv; auto.
  transitivity (mac_chain k1 k2 (enc1 k1 (xorl a iv)) (bs ++ [b])).
  - destruct bs; reflexivity.
  - rewrite IH. f_equal. f_equal. cbn [cbc_chain]. cbv zeta. symmetry. apply last_cons_d.
Qed.

Lemma cbc_chain_blk k : blk k -> forall bs iv, blk iv -> Forall blk bs -> Forall blk (cbc_chain k iv bs).
Proof.
  intros Bk. induction bs as [|b bs IH]; intros iv Bi F; cbn [cbc_chain]; auto. inv F.
  assert (B : blk (enc1 k (xorl b iv))).
  { apply blk_enc1; auto. apply blk_xorl; auto. }
  constructor; auto.
Qed.

Lemma concat_last bs x : bs <> [] -> Forall blk bs -> from (concat bs) (zlen (concat bs) - 16) = last bs x.
Proof.
  intros N F. destruct (exists_last N) as (a & b & ->). rewrite last_last. rewrite concat_app. simpl concat.
  rewrite app_nil_r. apply Forall_app in F as [_ F]. inv F. destruct H1 as [L _]. unfold from, zlen. rewrite app_length, L.
  replace (Z.to_nat (Z.of_nat (length (concat a) + 16) - 16)) with (length (concat a)) by lia.
  apply skipn_app_exact. reflexivity.
Qed.

Lemma cut16_blk n : forall l, bytes l -> length l = (16 * n)%nat -> Forall blk (cut16 n l) /\ length (cut16 n l) = n.
Proof.
  induction n as [|n IH]; intros l B L; cbn [cut16]; auto.
  destruct (IH (skipn 16 l)) as [A C]; [apply bytes_skipn; auto|rewrite skipn_length; lia|].
  assert (X : blk (firstn 16 l)) by (split; [rewrite firstn_length; lia|apply bytes_firstn; auto]).
  split; [constructor; auto|cbn [length]; lia].
Qed.

Lemma cbc_chain_length k : forall bs iv, length (cbc_chain k iv bs) = length bs.
Proof. induction bs; intros; cbn [cbc_chain length]; auto. Qed.

Lemma pad80_eq l : mac_pad l = pad80 l.
Proof.
  unfold mac_pad, pad80, aes_pad_len, zlen. rewrite Z.rem_mod_nonneg by lia.
  destruct (Nat.eqb_spec (length l mod 16) 0) as [E|E].
  - assert (X : Z.of_nat (length l) mod 16 =? 0 = true) by lia. rewrite X. reflexivity.
  - assert (X : Z.of_nat (length l) mod 16 =? 0 = false) by lia. rewrite X.
    cbn [app]. f_equal. f_equal. unfold zeros. f_equal. lia.
Qed.

Lemma mac_of_spec k1 k2 iv msg : blk k1 -> blk k2 -> blk iv -> msg <> [] -> bytes msg ->
  mac_of k1 k2 iv msg = osdp_mac k1 k2 iv msg.
Proof.
  intros B1 B2 Bi Ne B. destruct (mac_pad_ok msg Ne B) as (n & L & Bp).
  unfold osdp_mac. rewrite <- pad80_eq. unfold mac_of. cbv zeta. set (b := mac_pad msg) in *. clearbody b. clear msg Ne B.
  unfold zlen. rewrite L.
  set (a := firstn (16 * n) b). set (z := skipn (16 * n) b).
  assert (La : length a = (16 * n)%nat) by (unfold a; rewrite firstn_length; lia).
  assert (Lz : length z = 16%nat) by (unfold z; rewrite skipn_length; lia).
  assert (E : b = a ++ z) by (unfold a, z; symmetry; apply firstn_skipn).
  assert (Ba : bytes a) by (unfold a; apply bytes_firstn; auto).
  replace (Z.to_nat (Z.of_nat (16 * S n) - 16)) with (16 * n)%nat by lia. fold a.
  replace (from b (Z.of_nat (16 * S n) - 16)) with z.
  2:{ unfold from, z. f_equal. lia. }
  assert (BB : blocks16 b = cut16 n a ++ [z]).
  { unfold blocks16. rewrite (div16 b (S n) L), E. apply cut16_snoc; auto. }
  rewrite BB, mac_chain_snoc.
  rewrite (aes_cbc_chain k2 _ z 1) by lia.
  assert (Z1 : blocks16 z = [z]).
  { unfold blocks16. rewrite (div16 z 1) by lia. cbn [cut16]. rewrite firstn_all2 by lia. reflexivity. }
  rewrite Z1. cbn [cbc_chain concat]. rewrite app_nil_r. f_equal. f_equal.
  destruct n as [|n].
  - reflexivity.
  - assert (X : 16 <? Z.of_nat (16 * S (S n)) = true) by lia. rewrite X.
    rewrite (aes_cbc_chain k1 iv a (S n) La). unfold blocks16. rewrite (div16 a (S n) La).
    destruct (cut16_blk (S n) a Ba La) as [F1 F2].
    pose proof (cbc_chain_blk k1 B1 _ iv Bi F1) as F3.
    assert (NE : cbc_chain k1 iv (cut16 (S n) a) <> []).
    { intros Q. apply (f_equal (@length _)) in Q. rewrite cbc_chain_length, F2 in Q. simpl in Q. lia. }
    rewrite <- (concat_last _ iv NE F3). f_equal.
    assert (LC : forall bs, Forall blk bs -> zlen (concat bs) = 16 * zlen bs).
    { clear. intros bs F. induction F as [|x bs Hx F IH]; auto. simpl concat. rewrite zlen_app, zlen_cons, IH.
      destruct Hx as [Hx _]. unfold zlen. rewrite Hx. lia. }
    rewrite LC by auto. unfold zlen. rewrite cbc_chain_length, F2. lia.
Qed.

Lemma padded_eq l : pad_data l = padded l.
Proof.
  unfold pad_data, padded, aes_pad_len, EOM, zlen. cbn [app]. f_equal. f_equal. unfold zeros. f_equal. lia.
Qed.

Lemma encrypt_data_spec is_cmd s data : 
  encrypt_data is_cmd s data = osdp_encrypt (s_enc s) (if is_cmd then r_mac s else c_mac s) data.
Proof.
  unfold encrypt_data, osdp_encrypt. rewrite padded_eq.
  assert (L : exists n, length (padded data) = (16 * n)%nat).
  { exists (S (length data / 16)). unfold padded. rewrite app_length. cbn [length]. rewrite repeat_length. lia. }
  destruct L as [n L]. rewrite (aes_cbc_chain _ _ _ n L). f_equal.
Qed.
