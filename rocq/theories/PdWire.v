(** Frames put on the wire are well formed; what a refresh of a PD can send. *)
From Verif Require Import Base ListLemmas Crc SpecCrc CrcProofs CrcBurst Aes AesProofs Rb RbProofs
  Types Sc ScProofs Phy PhyCheck File Pd SpecRx SpecFrame RxProofs RxFwd PdRx PdCore PhyTx PdTx PdReply
  PdStep.
From Coq Require Import ZifyBool ZifyNat.
Ltac Zify.zify_post_hook ::= Z.div_mod_to_equations.
Local Opaque aes_ecb_encrypt aes_cbc_encrypt aes_cbc_decrypt mac_of.

Lemma sealed_body_ok p b : sc_keys_ok (sc p) -> bytes b -> 8 <= zlen b ->
  bytes (sealed_body p b) /\ 8 <= zlen (sealed_body p b) /\ firstn 8 (sealed_body p b) = firstn 8 b.
Proof.
  intros K B L. unfold sealed_body. dif; [|auto]. split; [|split].
  - apply bytes_app. split; [apply bytes_firstn; auto|]. apply encrypt_data_length; auto. apply bytes_skipn; auto.
  - rewrite zlen_app. pose proof (zlen_nonneg (encrypt_data (negb (pd_mode (fl p))) (sc p) (skipn 8 b))).
    unfold zlen at 1. rewrite firstn_length. unfold zlen in L. lia.
  - rewrite firstn_app, firstn_firstn, firstn_length. unfold zlen in L.
    replace (8 - Nat.min 8 (length b))%nat with 0%nat by lia. rewrite firstn_O, app_nil_r. reflexivity.
Qed.

Lemma with_crc_shape x n : bytes x -> (5 <= length x)%nat -> n = zlen x + 2 -> n <= 256 ->
  let f := with_crc (put_len n x) in
  bytes f /\ f_len f = zlen f /\ crc_valid f /\ nth 0 f 0 = nth 0 x 0 /\ nth 1 f 0 = nth 1 x 0 /\ nth 4 f 0 = nth 4 x 0 /\
  zlen f = n.
Proof.
  intros B L N M f. unfold f. assert (Bp : bytes (put_len n x)) by (apply bytes_put_len; auto).
  rewrite with_crc_eq by auto. pose proof (put_len_length n x) as PL. unfold zlen in N.
  split; [apply bytes_app; split; auto; bytes_cons; auto using byte_byte0, byte_byte1|].
  split; [rewrite f_len_put by lia; unfold zlen; rewrite app_length, PL; simpl; lia|].
  split; [apply crc_sealed; auto|].
  rewrite !app_nth1 by lia. rewrite !nth_put_len by lia. split; auto. split; auto. split; auto.
  unfold zlen. rewrite app_length, PL. simpl. lia.
Qed.

Lemma nth_firstn8 i (a b : list Z) : firstn 8 a = firstn 8 b -> (i < 8)%nat -> nth i a 0 = nth i b 0.
Proof. intros. eapply nth_firstn_eq; eauto. Qed.

Lemma wire_shape p b : sc_keys_ok (sc p) -> bytes b -> nth 0 b 0 = 83 -> 6 <= zlen b ->
  (macced p b = true -> 8 <= zlen b) -> zlen (wire_of p b) <= 256 ->
  bytes (wire_of p b) /\ f_shape (f_reply b) (wire_of p b) /\ crc_valid (wire_of p b) /\
  nth 1 (wire_of p b) 0 = nth 1 b 0 /\ nth 4 (wire_of p b) 0 = nth 4 b 0.
Proof.
  intros K B H0 L L8 M. unfold wire_of in *. destruct (macced p b).
  - specialize (L8 eq_refl). destruct (sealed_body_ok p b K B L8) as (B1 & L1 & F1).
    pose proof (sealed_mac_blk p b K B L8) as Bm.
    set (m := firstn 4 (sealed_mac p b)) in *.
    assert (Lm : length m = 4%nat) by (unfold m; rewrite firstn_length; destruct Bm; lia).
    assert (Bm4 : bytes m) by (apply bytes_firstn; apply Bm). clearbody m. clear Bm.
    set (s := sealed_body p b) in *. clearbody s.
    rewrite put_len_app in * by (unfold zlen in L1; lia).
    assert (E : zlen (with_crc (put_len (zlen s + 6) (s ++ m))) = zlen s + 6).
    { rewrite zlen_with_crc, zlen_put_len, zlen_app. unfold zlen at 2. rewrite Lm. lia. }
    assert (LS : length (s ++ m) = (length s + 4)%nat) by (rewrite app_length; lia).
    destruct (with_crc_shape (s ++ m) (zlen s + 6)) as (W1 & W2 & W3 & W4 & W5 & W6 & W7).
    { apply bytes_app; auto. }
    { unfold zlen in L1. lia. }
    { unfold zlen. rewrite LS. lia. }
    { lia. }
    assert (N : forall i, (i < 8)%nat -> nth i (s ++ m) 0 = nth i b 0).
    { intros i Hi. rewrite app_nth1 by (unfold zlen in L1; lia). apply nth_firstn8; auto. }
    rewrite N in W4, W5, W6 by lia.
    split; auto. split; [|auto]. split; [congruence|]. split; [unfold f_reply; rewrite W5; auto|]. split; auto. lia.
  - assert (E : zlen (with_crc (put_len (zlen b + 2) b)) = zlen b + 2) by (rewrite zlen_with_crc, zlen_put_len; lia).
    destruct (with_crc_shape b (zlen b + 2)) as (W1 & W2 & W3 & W4 & W5 & W6 & W7); auto; try (unfold zlen in *; lia).
    split; auto. split; [|auto]. split; [congruence|]. split; [unfold f_reply; rewrite W5; auto|]. split; auto. lia.
Qed.

(* everything a reply can put on the line *)
Lemma reply_sent_frame e p q ok o : env_ok e -> binv p -> reply_sent e p q ok o ->
  exists ob ot, o = ob ++ ot /\ no_tx ob /\
  (ot = [] \/ exists w f k, f = mk_of p ++ w /\ 0 < k <= zlen f /\ ot = [OTx (firstn (Z.to_nat k) f)] /\
     (ok = true -> k = zlen f) /\
     bytes w /\ f_shape true w /\ crc_valid w /\ f_crc w = true /\ nth 1 w 0 = pd_addr p /\ f_seq w = seqn p mod 4 /\
     zlen f <= tx_buf_size p).
Proof.
  intros K I [(_ & -> & _ & ->)|(T69 & p2 & pay & ss & m & smb & ob & ot & BS & Hm & (_ & SM) & BR & NT & TC & TY & -> & S)].
  { exists [], []. split; auto. split; auto with notx. }
  exists ob, ot. split; auto. split; auto. cbv zeta in S. destruct S as [(-> & _)|(Lf & S & _)]; auto.
  destruct S as [(-> & _)|S]; [auto|]. right.
  pose proof (iv_ty p I) as T.
  destruct (reply_body_facts e p pay ss m smb p2 ob T (eo_rand e K) Hm BS SM) as (Bb & B0 & B1 & Bl & B4 & MC & MC2).
  set (b := reply_body p pay ss) in *. clearbody b.
  destruct (build_switch_ok e (after_init p) smb m p2 pay ss ob (after_init_typed p T) (eo_rand e K) Hm BS) as (_ & T2 & _).
  pose proof T2 as (_ & _ & _ & (KO & _) & _).
  pose proof (tx_buf_le p) as TB.
  assert (LW : zlen (wire_of p2 b) <= 256).
  { rewrite zlen_app in Lf. pose proof (zlen_nonneg (mk_of p)). lia. }
  destruct (wire_shape p2 b KO Bb B0 ltac:(lia) ltac:(intros X; apply MC2; auto) LW) as (W1 & W2 & W3 & W4 & W5).
  destruct (pd_ctl_cases p) as [PC PE].
  assert (FR : f_reply b = true).
  { unfold f_reply. rewrite B1, pd_addr_eq. destruct (broadcast (fl p)); lia. }
  assert (C4 : f_crc (wire_of p2 b) = true /\ f_seq (wire_of p2 b) = seqn p mod 4).
  { unfold f_crc, f_seq. rewrite W5. assert (X : seqn p mod 4 = pd_ctl p - 4) by lia. rewrite X.
    clear X PE. simpl in PC.
    destruct B4 as [-> | ->]; destruct PC as [<-|[<-|[<-|[<-|[]]]]]; split; reflexivity. }
  destruct C4 as [C1 C2]. rewrite FR in W2.
  exists (wire_of p2 b), (mk_of p ++ wire_of p2 b).
  assert (P0 : 0 < zlen (mk_of p ++ wire_of p2 b)).
  { rewrite zlen_app. pose proof (zlen_nonneg (mk_of p)). destruct W2 as (_ & _ & _ & W2). lia. }
  destruct S as [(k & Hk & -> & -> & _)|(-> & ->)].
  - exists k. split; auto. split; [lia|]. split; auto. split; [discriminate|]. rewrite <- B1, <- W4. auto 10.
  - exists (zlen (mk_of p ++ wire_of p2 b)). split; auto. split; [lia|].
    split; [unfold zlen; rewrite Nat2Z.id, firstn_all; auto|]. split; auto. rewrite <- B1, <- W4. auto 10.
Qed.
