(** A panel in session decodes only authentic frames, but for the exceptions. *)
From Verif Require Import Base ListLemmas Crc SpecCrc CrcProofs CrcBurst Aes AesProofs AesInv Rb RbProofs
  Types Sc ScProofs Phy PhyCheck File Pd SpecRx SpecFrame SpecSec SpecSession SpecReply SpecAuth RxProofs RxFwd PdRx PdCore PhyTx PdTx PdReply
  PdStep PdWire PdFwd PdSec MacProofs WireSec SaysProofs.
From Coq Require Import ZifyBool ZifyNat.
Ltac Zify.zify_post_hook ::= Z.div_mod_to_equations.
Local Opaque aes_ecb_encrypt aes_cbc_encrypt aes_cbc_decrypt mac_of RB_SIZE osdp_mac enc1 osdp_encrypt encrypt_data.

Lemma decode_genuine p q l : decode_packet p = Ok (q, DData l) -> rx_base p -> full p -> sc_keys_ok (sc p) -> pd_mode (fl p) = false -> sc_active (fl p) = true ->
  genuine (s_mac1 (sc p)) (s_mac2 (sc p)) (c_mac (sc p)) (cmd_id p) (frame_of p) l.
Proof.
  intros D (_ & _ & LB & BB) F K MD A.
  destruct (frame_from p LB F) as (Z1 & Z2 & Z3).
  assert (PB : pblen p = plen p) by apply F. assert (PL : 6 <= plen p <= 256) by apply F.
  pose proof (mark_len_cases p) as ML.
  assert (G : forall i, (Z.to_nat i < length (frame_of p))%nat -> getb (from (pbuf p) (mark_len p)) i = nth (Z.to_nat i) (frame_of p) 0) by (intros; apply Z2; auto).
  unfold zlen in Z1.
  assert (G4 : getb (from (pbuf p) (mark_len p)) 4 = nth 4 (frame_of p) 0) by (apply (G 4); lia).
  assert (C1 : ctl_scb (getb (from (pbuf p) (mark_len p)) 4) = f_scb (frame_of p)) by (rewrite f_scb_ctl; rewrite G4; reflexivity).
  assert (C2 : ctl_crc (getb (from (pbuf p) (mark_len p)) 4) = f_crc (frame_of p)) by (rewrite f_crc_ctl; rewrite G4; reflexivity).
  assert (BF : bytes (frame_of p)) by (unfold frame_of, sub; apply bytes_firstn, bytes_skipn; auto).
  unfold decode_packet in D. cbv zeta in D. rewrite C1, C2, PB, MD, A in D.
  assert (T2 : 1 <= f_tail (frame_of p) <= 2) by (unfold f_tail; destruct (f_crc (frame_of p)); lia).
  assert (LF : zlen (frame_of p) = plen p - mark_len p) by (unfold zlen; lia).
  change (if f_crc (frame_of p) then 2 else 1) with (f_tail (frame_of p)) in D.
  pose proof (fun n H => frame_prefix p n LB F H) as FP.
  rewrite <- LF in D. set (f := frame_of p) in *. unfold genuine.
  destruct (f_scb f) eqn:SCB.
  - cbn [andb negb] in D. set (g := from (pbuf p) (mark_len p)) in *.
    assert (BG : bytes g) by (apply bytes_skipn; auto).
    pose proof (bytes_getb g 5 BG) as B5'. unfold byte in B5'.
    destruct ((getb g 6 <? SCS_11) || (getb g 6 >? SCS_18)) eqn:T; [discriminate|].
    set (p1 := if _ && _ && _ then _ else _) in D.
    assert (S1 : sc p1 = sc p /\ pd_mode (fl p1) = false) by (unfold p1; destruct (_ && _ && _); auto). clearbody p1.
    destruct (SCS_15 <=? getb g 6) eqn:AS.
    + unfold decode_secure in D. rewrite (proj2 S1) in D.
      destruct (compute_mac _ _ _) as [p2| |] eqn:CM; simpl in D; try discriminate.
      assert (S6 : 11 <= zlen f).
      { destruct (negb (eqb_bytes _ _)); [discriminate|]. destruct ((getb g 6 =? SCS_17) || (getb g 6 =? SCS_18)).
        - destruct ((_ <? 0) && _); [discriminate|]. destruct (_ <? 0) eqn:NN in D; [discriminate|]. lia.
        - unfold ret_data in D. destruct (_ <=? 0) eqn:LE in D; [discriminate|]. lia. }
      assert (G6 : getb g 6 = f_sctype f) by (apply (G 6); unfold zlen in S6; lia).
      destruct (negb (eqb_bytes _ _)) eqn:EQ; [discriminate|]. apply Bool.negb_false_iff, eqb_bytes_eq in EQ.
      right. unfold SCS_11, SCS_18, SCS_15 in *. split; [lia|]. unfold mac_right.
      unfold compute_mac in CM. destruct (zlen _ =? 0) eqn:Z0 in CM; [discriminate|]. injection CM as <-. rewrite (proj1 S1) in EQ.
      rewrite FP in EQ by lia. rewrite (Z3 _ 4) in EQ by lia. cbn [r_mac] in EQ.
      change (f_mac f) with (sub f (zlen f - f_tail f - 4) 4). rewrite EQ.
      change (r_mac (sc (set_r_mac ?m p1))) with m. change (firstn (Z.to_nat (zlen f - f_tail f - 4)) f) with (f_covered f).
      destruct K as (k1 & k2 & k3 & k4 & k5). rewrite mac_of_spec; auto.
      * intros X. apply (f_equal (@length Z)) in X. unfold f_covered in X. rewrite firstn_length in X. cbn [length] in X. unfold zlen in *. lia.
      * apply bytes_firstn. exact BF.
    + left. unfold ret_data in D. destruct (_ <=? 0) eqn:LE in D; [discriminate|].
      assert (G6 : getb g 6 = f_sctype f) by (apply (G 6); unfold zlen in LE; lia).
      unfold SCS_11, SCS_18, SCS_15 in *. lia.
  - destruct (_ && _ && _) eqn:X in D; [discriminate|]. unfold ret_data in D.
    destruct (_ <=? 0) eqn:LE in D; [discriminate|]. injection D as <- <-.
    assert (H : nth 0 (sub (from (pbuf p) (mark_len p)) 5 (zlen f - f_tail f - 5)) 0 = getb (from (pbuf p) (mark_len p)) 5).
    { unfold sub, getb. destruct (Z.to_nat (zlen f - f_tail f - 5)) eqn:N; [lia|]. change (Z.to_nat 5) with 5%nat.
      clear. generalize (from (pbuf p) (mark_len p)). intros u. do 5 (destruct u; [reflexivity|]). destruct u; reflexivity. }
    rewrite H. unfold CMD_KEYSET, REPLY_ACK, REPLY_NAK in X. lia.
Qed.
