(** CP: a command whose payload is built goes out; a reply that is there is decoded. *)
From Verif Require Import Base ListLemmas Crc SpecCrc CrcProofs CrcBurst Aes AesProofs Rb RbProofs
  Types Sc ScProofs Phy PhyCheck File Pd Cp PdRun SpecRx SpecFrame SpecSec SpecSession SpecPd SpecLink RxProofs RxFwd PdRx PdCore PhyTx PdTx PdReply
  PdStep PdWire PdFwd PdSec PdHist2 MacProofs WireSec CpCtx SpecCp SpecCpRun CpTx CpRx CpStep CpInv CpEdge CpFacts CpSum CpFwd Chunk Trip ChunkRun LinkProofs.
From Coq Require Import ZifyBool ZifyNat.
Ltac Zify.zify_post_hook ::= Z.div_mod_to_equations.
Local Opaque aes_ecb_encrypt aes_cbc_encrypt aes_cbc_decrypt mac_of RB_SIZE osdp_mac enc1 osdp_encrypt encrypt_data.

Lemma command_built e p p2 d ss ob : pd_typed p -> fread_typed e -> hs_ok p -> 69 <= tx_buf_size p ->
  build_cmd_switch e (cp_init p) (cmd_smb p) (cmd_room p) = Ok (p2, Some d, ss, ob) ->
  build_command e (cp_init p) (255 :: cp_hdr p) (tx_buf_size p) = Ok (p2, Some (255 :: cmd_body p d ss), ob).
Proof.
  intros T FT HO N BS. pose proof (tx_buf_le p) as NL.
  assert (X : exists y, build_command e (cp_init p) (255 :: cp_hdr p) (tx_buf_size p) = Ok y).
  { unfold build_command.
    assert (HM : mark_len (cp_init p) = 1) by reflexivity.
    unfold data_offset, smb_pos. rewrite HM. set (off := 1 + 5 + _). cbv zeta. set (smb := if ctl_scb _ then Some (1 + 5) else None).
    assert (F : off = zlen (255 :: cp_hdr p) /\ smb = if cmd_smb p then Some 6 else None).
    { unfold off, smb, cp_hdr, cmd_smb. destruct (cp_ctl_cases p) as [C _]. simpl in C.
      destruct C as [<-|[<-|[<-|[<-|[]]]]]; destruct (sc_active (fl p)), (in_sc_handshake false (cmd_id p)); split; reflexivity. }
    destruct F as [F1 F2]. rewrite F2, F1. fold (cmd_room p). clearbody off smb.
    destruct (cmd_room p <=? 0); [eexists; reflexivity|].
    replace (match (if cmd_smb p then Some 6 else None) with Some _ => true | None => false end) with (cmd_smb p) by (destruct (cmd_smb p); reflexivity).
    rewrite BS. cbn [bind]. eexists. reflexivity. }
  destruct X as [[[q f] o] X]. destruct (build_command_spec e p q f o T FT HO ltac:(lia) X) as (pay & ss' & BS' & _ & PF).
  rewrite BS in BS'. injection BS' as <- <- <- <-. rewrite PF in X. exact X.
Qed.

Lemma cmd_goes e p p2 d ss ob : pd_mode (fl p) = false -> -1 <= seqn p <= 3 -> pd_typed p -> fread_typed e -> hs_ok p -> 69 <= tx_buf_size p ->
  build_cmd_switch e (cp_init p) (cmd_smb p) (cmd_room p) = Ok (p2, Some d, ss, ob) ->
  let b := cmd_body p d ss in let f := 255 :: wire_of p2 b in
  zlen f <= tx_buf_size p -> 256 <= e_tx e ->
  build_and_send e p = Ok (set_pbuf (blit (pbuf p2) 0 f) (cp_macked p2 b), true, ob ++ [OTx f]).
Proof.
  intros M SQ T FT HO N BS b f L TX. pose proof (tx_buf_le p) as NL.
  assert (X : exists y, build_and_send e p = Ok y).
  { unfold build_and_send. cbv zeta. rewrite packet_init_cp by assumption. replace (tx_buf_size p <? 69) with false by lia.
    rewrite (command_built e p p2 d ss ob T FT HO N BS). cbn [bind]. fold b. unfold send_packet.
    assert (RM : 60 <= cmd_room p) by (unfold cmd_room; pose proof (cp_hdr_len p); unfold zlen; cbn [length]; lia).
    destruct (build_cmd_ok _ _ _ _ _ _ _ _ (cp_init_typed p T) FT RM BS) as (_ & T2 & P & BR & S).
    assert (AQ : sc_active (fl p2) = sc_active (fl p) /\ has_mark (fl p2) = true) by (destruct BR as [-> | [(_ & fx & ->) | (_ & ->)]]; auto).
    destruct AQ as (AQ & HQ). change (cmd_id (cp_init p)) with (cmd_id p) in S.
    destruct (cmd_body_facts p p2 d ss P HO AQ S) as (F1 & F2 & F3 & F4 & F5 & F6 & F7). fold b in F1, F2, F4, F7.
    assert (MK : mk_of p2 = [255]) by (unfold mk_of; rewrite HQ; auto).
    change (255 :: b) with ([255] ++ b). rewrite <- MK.
    assert (Y : exists z, packet_finalize p2 (mk_of p2 ++ b) (tx_buf_size p) = Ok z).
    { destruct (macced p2 b) eqn:EM.
      - destruct (F7 eq_refl) as [M5 M8].
        pose proof (finalize_secure p2 b (tx_buf_size p) F1 F2 M8 EM M5 (proj1 (proj1 (proj2 (proj2 (proj2 T2))))) NL ltac:(left; auto)) as FS.
        cbv zeta in FS. destruct (_ >? _); [destruct FS|]; eexists; eassumption.
      - rewrite (finalize_plain p2 b (tx_buf_size p) F1 F2 F4 EM). cbv zeta. destruct (_ >? _); eexists; reflexivity. }
    destruct Y as [[q1 [fr|]] Y]; rewrite Y; cbn [bind]; eexists; reflexivity. }
  destruct X as [[[q ok] o] X].
  destruct (build_and_send_spec e p q ok o M SQ T FT HO X) as [(A & _) | (_ & p2' & pay & ss' & ob' & BS' & _ & _ & _ & _ & _ & Y)]; [lia|].
  rewrite BS in BS'. injection BS' as <- <- <- <-.
  destruct Y as [(A & _) | (d' & A & Y)]; [discriminate|]. injection A as <-. cbv zeta in Y. fold b in Y. fold f in Y.
  destruct Y as (_ & _ & _ & _ & _ & _ & _ & [(A & _) | (_ & (ot & E1 & E2) & E3)]); [lia|].
  rewrite X, E1, E3. destruct E2 as [(_ & _ & A) | [(k & _ & _ & _ & A) | (-> & ->)]]; [lia|lia|reflexivity].
Qed.

(* the refresh that sends *)
Lemma update_send e p p2 d ss ob : cpi p -> env_typed e -> phy_state p = PSend -> 69 <= tx_buf_size p ->
  build_cmd_switch e (cp_init p) (cmd_smb p) (cmd_room p) = Ok (p2, Some d, ss, ob) ->
  let b := cmd_body p d ss in let f := 255 :: wire_of p2 b in
  zlen f <= tx_buf_size p -> 256 <= e_tx e ->
  state_update e p = Ok (set_phy_tstamp (e_now e) (set_phy_state PReplyWait (set_reply_id REPLY_INVALID
     (state_reset false (set_pbuf (blit (pbuf p2) 0 f) (cp_macked p2 b))))), CInprog, ob ++ [OTx f]).
Proof.
  intros I T PS N BS b f L TX.
  assert (HO : hs_ok p) by (apply hs_of_cmd; [exact I|unfold phy_running; rewrite PS; reflexivity]).
  destruct I as [B _ _ _ CM AC _ _]. destruct B as [Mo Sk Rx Sq Ty Cq].
  unfold state_update, phy_running. rewrite PS. unfold phy_state_update. rewrite PS. unfold phy_send.
  rewrite (cmd_goes e p p2 d ss ob Mo Sq Ty (proj2 (proj2 T)) HO N BS L TX). reflexivity.
Qed.
