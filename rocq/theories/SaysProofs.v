(** Decoding a frame yields what the frame says. *)
From Verif Require Import Base ListLemmas Crc SpecCrc CrcProofs CrcBurst Aes AesProofs AesInv Rb RbProofs
  Types Sc ScProofs Phy PhyCheck File Pd SpecRx SpecFrame SpecSec SpecSession SpecReply RxProofs RxFwd PdRx PdCore PhyTx PdTx PdReply
  PdStep PdWire PdFwd PdSec MacProofs WireSec.
From Coq Require Import ZifyBool ZifyNat.
Ltac Zify.zify_post_hook ::= Z.div_mod_to_equations.
Local Opaque aes_ecb_encrypt aes_cbc_encrypt aes_cbc_decrypt mac_of RB_SIZE osdp_mac enc1 osdp_encrypt encrypt_data.

Lemma eom_rev_some r n : eom_rev r = Some n -> exists k t, r = zeros k ++ 128 :: t /\ length t = n.
Proof.
  induction r as [|b t IH]; simpl; [discriminate|]. destruct (b =? EOM) eqn:E.
  - intros H. injection H as <-. exists 0%nat, t. unfold EOM in E. split; auto. simpl. f_equal. lia.
  - destruct t as [|b' t]; [discriminate|]. destruct (b =? 0) eqn:Z; [|discriminate]. intros H.
    destruct (IH H) as (k & u & -> & L). exists (S k), u. split; auto. simpl. f_equal. lia.
Qed.

Lemma decrypt_enciphers is_cmd eok s ct d m : sc_keys_ok s -> bytes ct -> decrypt_data is_cmd eok s ct = Some (d, m) ->
  (ct = [] /\ firstn (Z.to_nat m) d = []) \/
  enciphers (s_enc s) (if is_cmd then r_mac s else c_mac s) ct (firstn (Z.to_nat m) d).
Proof.
  intros K B. unfold decrypt_data. destruct (negb _) eqn:R; [discriminate|].
  destruct (zlen ct =? 0) eqn:Z0.
  { destruct eok; [|discriminate]. intros H. injection H as <- <-. left. split; auto. destruct ct; auto. rewrite zlen_cons in Z0. pose proof (zlen_nonneg ct). lia. }
  set (x := aes_cbc_decrypt _ _ _). destruct (eom_rev (rev x)) as [n|] eqn:E; [|discriminate]. intros H. injection H as <- <-. right.
  destruct (eom_rev_some _ _ E) as (k & t & R2 & L).
  assert (X : x = rev t ++ 128 :: zeros k).
  { rewrite <- (rev_involutive x), R2, rev_app_distr, rev_zeros. simpl. rewrite <- app_assoc. reflexivity. }
  assert (BI : blk (data_iv is_cmd s)) by (apply blk_data_iv; apply K).
  assert (LN : length ct = (16 * (length ct / 16))%nat) by (unfold zlen in *; lia).
  destruct (cbc_decrypt_shape _ (s_enc s) (data_iv is_cmd s) ct ltac:(apply K) BI B LN) as [LX _]. fold x in LX.
  assert (FX : aes_cbc_encrypt (s_enc s) (data_iv is_cmd s) x = ct) by (apply (aes_cbc_fwd _ _ _ (length ct / 16)); auto; apply K).
  rewrite (aes_cbc_chain _ _ _ (length ct / 16)) in FX by lia.
  rewrite Nat2Z.id. rewrite X. rewrite <- L, <- (rev_length t), upd_app_exact, firstn_app, firstn_all, Nat.sub_diag. cbn [firstn]. rewrite app_nil_r.
  exists k. change (repeat 0 k) with (zeros k). rewrite <- X. split; [lia|]. rewrite <- FX. reflexivity.
Qed.

Lemma sub_ne (l : list Z) o n : 0 <= o -> 0 < n -> o + n <= zlen l -> sub l o n <> [].
Proof. intros A B C X. apply (f_equal (@length Z)) in X. unfold sub in X. rewrite firstn_length, skipn_length in X. cbn [length] in X. unfold zlen in C. lia. Qed.

Lemma sub_hd (l : list Z) o n : 0 <= o -> 0 < n -> o + n <= zlen l -> sub l o n = nth (Z.to_nat o) l 0 :: sub l (o + 1) (n - 1).
Proof.
  intros A B C. unfold sub. replace (Z.to_nat n) with (S (Z.to_nat (n - 1))) by lia. replace (Z.to_nat (o + 1)) with (S (Z.to_nat o)) by lia.
  assert (L : (Z.to_nat o < length l)%nat) by (unfold zlen in C; lia). revert L. generalize (Z.to_nat o) (Z.to_nat (n - 1)). clear. intros o n. revert l. induction o; intros l L; destruct l; simpl in L; try lia; [reflexivity|].
  cbn [skipn nth]. rewrite IHo by lia. reflexivity.
Qed.

Lemma decode_says p q l : decode_packet p = Ok (q, DData l) -> rx_base p -> full p -> (sc_active (fl p) = true -> sc_keys_ok (sc p)) ->
  f_says (sc_active (fl p)) (s_enc (sc p)) (last_in p) (frame_of p) l.
Proof.
  intros D (_ & _ & LB & BB) F K.
  destruct (frame_from p LB F) as (Z1 & Z2 & Z3).
  assert (PB : pblen p = plen p) by apply F. assert (PL : 6 <= plen p <= 256) by apply F.
  pose proof (mark_len_cases p) as ML.
  assert (G : forall i, (Z.to_nat i < length (frame_of p))%nat -> getb (from (pbuf p) (mark_len p)) i = nth (Z.to_nat i) (frame_of p) 0) by (intros; apply Z2; auto).
  unfold zlen in Z1.
  assert (G4 : getb (from (pbuf p) (mark_len p)) 4 = nth 4 (frame_of p) 0) by (apply (G 4); lia).
  assert (B5 : byte (nth 5 (frame_of p) 0)) by (apply bytes_nth; unfold frame_of, sub; apply bytes_firstn, bytes_skipn; auto).
  assert (C1 : ctl_scb (getb (from (pbuf p) (mark_len p)) 4) = f_scb (frame_of p)) by (rewrite f_scb_ctl; rewrite G4; reflexivity).
  assert (C2 : ctl_crc (getb (from (pbuf p) (mark_len p)) 4) = f_crc (frame_of p)) by (rewrite f_crc_ctl; rewrite G4; reflexivity).
  unfold decode_packet in D. cbv zeta in D. rewrite C1, C2, PB in D.
  assert (T2 : 1 <= f_tail (frame_of p) <= 2) by (unfold f_tail; destruct (f_crc (frame_of p)); lia).
  assert (LF : zlen (frame_of p) = plen p - mark_len p) by (unfold zlen; lia).
  change (if f_crc (frame_of p) then 2 else 1) with (f_tail (frame_of p)) in D.
  rewrite <- LF in D. set (f := frame_of p) in *. unfold byte in B5.
  destruct (f_scb f) eqn:SCB.
  - destruct (pd_mode (fl p) && _); [discriminate|].
    set (g := from (pbuf p) (mark_len p)) in *.
    assert (BG : bytes g) by (apply bytes_skipn; auto).
    pose proof (bytes_getb g 5 BG) as B5'. unfold byte in B5'.
    destruct ((getb g 6 <? SCS_11) || (getb g 6 >? SCS_18)) eqn:T; [discriminate|].
    destruct (negb (sc_active (fl p)) && _) eqn:T3; [discriminate|].
    assert (FS : f_start f = 5 + nth 5 f 0) by (unfold f_start; rewrite SCB; reflexivity).
    set (p1 := if _ && _ && _ then _ else _) in D.
    assert (S1 : sc p1 = sc p /\ pd_mode (fl p1) = pd_mode (fl p)) by (unfold p1; destruct (_ && _ && _); auto). clearbody p1.
    destruct (sc_active (fl p) && (SCS_15 <=? getb g 6)) eqn:AS.
    + apply Bool.andb_true_iff in AS as [A1 A2]. unfold decode_secure in D.
      destruct (compute_mac _ _ _) as [p2| |] eqn:CM; simpl in D; try discriminate.
      assert (S2 : (if pd_mode (fl p) then r_mac (sc p2) else c_mac (sc p2)) = last_in p /\ s_enc (sc p2) = s_enc (sc p) /\ sc_keys_ok (sc p2)).
      { unfold compute_mac in CM. destruct (zlen _ =? 0) eqn:Z0; [discriminate|]. injection CM as <-.
        destruct S1 as [S1 S1']. rewrite S1, S1'. pose proof (K A1) as (k1 & k2 & k3 & k4 & k5).
        assert (BM : blk (mac_of (s_mac1 (sc p)) (s_mac2 (sc p)) (if pd_mode (fl p) then r_mac (sc p) else c_mac (sc p)) (firstn (Z.to_nat (zlen f - f_tail f - 4)) g))).
        { apply blk_mac_of; auto; [destruct (pd_mode (fl p)); auto|destruct (firstn _ _); [discriminate|congruence]|apply bytes_firstn; auto]. }
        unfold last_in. destruct (pd_mode (fl p)); simpl; rewrite ?S1; split; auto; split; auto; unfold sc_keys_ok; simpl; rewrite ?S1; auto 6. }
      destruct (negb (eqb_bytes _ _)); [discriminate|].
      destruct ((getb g 6 =? SCS_17) || (getb g 6 =? SCS_18)) eqn:TY.
      * destruct ((_ <? 0) && _); [discriminate|]. destruct (_ <? 0) eqn:NN in D; [discriminate|].
        assert (S6 : 7 <= zlen f) by lia. 
        assert (G5 : getb g 5 = nth 5 f 0) by (apply (G 5); unfold zlen in S6; lia).
        assert (G6 : getb g 6 = f_sctype f) by (apply (G 6); unfold zlen in S6; lia).
        rewrite G5, G6 in *. rewrite <- FS in *.
        destruct (decrypt_data _ _ _ _) as [[d m]|] eqn:DD; [|discriminate]. injection D as <- <-.
        rewrite Z3 in DD by lia.
        assert (BF : bytes f) by (unfold f, frame_of, sub; apply bytes_firstn, bytes_skipn; auto).
        assert (BC : bytes (sub f (f_start f + 1) (zlen f - f_tail f - 5 - nth 5 f 0 - 4 - 1))) by (unfold sub; apply bytes_firstn, bytes_skipn; auto).
        pose proof (decrypt_enciphers _ _ _ _ _ _ (proj2 (proj2 S2)) BC DD) as X.
        unfold SCS_17, SCS_18, SCS_11 in *.
        eapply FS_cipher with (ct := sub f (f_start f + 1) (zlen f - f_tail f - 5 - nth 5 f 0 - 4 - 1)); auto; [lia| |].
        -- rewrite (sub_hd f (f_start f)) by lia. unfold getb. rewrite Z2 by (unfold zlen in *; lia). f_equal. f_equal; lia.
        -- destruct X as [X|X]; [left; exact X|]. right. rewrite (proj1 (proj2 S2)) in X. rewrite (proj2 S1), (proj1 S2) in X. exact X.
      * unfold ret_data in D. destruct (_ <=? 0) eqn:LE in D; [discriminate|]. injection D as <- <-.
        assert (S6 : 7 <= zlen f) by lia. 
        assert (G5 : getb g 5 = nth 5 f 0) by (apply (G 5); unfold zlen in S6; lia).
        assert (G6 : getb g 6 = f_sctype f) by (apply (G 6); unfold zlen in S6; lia).
        rewrite G5, G6 in *. rewrite <- FS in *. unfold SCS_17, SCS_18, SCS_11, SCS_15 in *.
        apply FS_mac; auto; [lia| |].
        -- rewrite Z3 by lia. f_equal. lia.
        -- rewrite Z3 by lia. apply sub_ne; lia.
    + unfold ret_data in D. destruct (_ <=? 0) eqn:LE in D; [discriminate|]. injection D as <- <-.
      assert (S6 : 7 <= zlen f) by lia. 
      assert (G5 : getb g 5 = nth 5 f 0) by (apply (G 5); unfold zlen in S6; lia).
      assert (G6 : getb g 6 = f_sctype f) by (apply (G 6); unfold zlen in S6; lia).
      rewrite G5, G6 in *. rewrite <- FS in *. unfold SCS_17, SCS_18, SCS_11, SCS_15 in *.
      apply FS_clear.
      * right. destruct (sc_active (fl p)); [right; lia|auto].
      * rewrite Z3 by lia. f_equal. lia.
      * rewrite Z3 by lia. apply sub_ne; lia.
  - destruct (if pd_mode (fl p) then _ else _); [discriminate|]. unfold ret_data in D.
    destruct (_ <=? 0) eqn:LE in D; [discriminate|]. injection D as <- <-.
    assert (FS : f_start f = 5) by (unfold f_start; rewrite SCB; reflexivity).
    apply FS_clear; auto; rewrite Z3, ?FS by lia.
    + f_equal.
    + apply sub_ne; lia.
Qed.

(* the first byte of what a frame says is its code *)
Lemma says_code act k last f l : f_says act k last f l -> bytes f -> getb l 0 = f_code f.
Proof.
  intros S B. assert (H : forall n, sub f (f_start f) n <> [] -> getb (sub f (f_start f) n) 0 = f_code f).
  { intros n NE. unfold getb, f_code. unfold sub in *. cbn [Z.to_nat nth].
    revert NE. generalize (Z.to_nat n) (Z.to_nat (f_start f)). clear. intros n o NE.
    destruct n; [elim NE; reflexivity|]. revert f NE. induction o; intros f NE; destruct f; try (elim NE; reflexivity); [reflexivity|]. cbn [skipn nth] in *. apply IHo; auto. }
  destruct S as [_ E N|_ _ _ E N|c d ct _ _ _ E E2 _]; [rewrite E in *; auto..|].
  rewrite E. change (getb (c :: d) 0) with (getb (c :: ct) 0). rewrite E2. apply H. rewrite <- E2. discriminate.
Qed.
