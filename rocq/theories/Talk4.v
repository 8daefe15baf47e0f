(** Panel and device: identification, capabilities, an event. *)
From Verif Require Import Base ListLemmas Crc SpecCrc CrcProofs CrcBurst Aes AesProofs Rb RbProofs
  Types Sc ScProofs Phy PhyCheck File Pd Cp PdRun SpecRx SpecFrame SpecSec SpecSession SpecCmd SpecApp SpecPd SpecLink RxProofs RxFwd PdRx PdCore PhyTx PdTx PdReply
  PdStep PdWire PdFwd PdSec PdHist2 MacProofs WireSec CpCtx SpecCp SpecCpRun CpTx CpRx CpStep CpInv CpEdge CpFacts CpSum CpFwd Chunk Trip ChunkRun LinkProofs LinkStep CpSend SpecHand SpecTalk Hand Line Talk Talk2 Talk3.
From Coq Require Import ZifyBool ZifyNat.
Ltac Zify.zify_post_hook ::= Z.div_mod_to_equations.
Local Opaque aes_ecb_encrypt aes_cbc_encrypt aes_cbc_decrypt mac_of RB_SIZE osdp_mac enc1 osdp_encrypt encrypt_data cap_entries.

Lemma tx_size p : tx_buf_size p <= 256.
Proof. unfold tx_buf_size. change PBUF_SIZE with 256. destruct (_ =? _); lia. Qed.
Lemma fits_small n act d : bytes d -> 1 <= zlen d <= 53 -> 69 <= n <= 256 -> (act = true -> zlen d <= 48) -> fits n act d.
Proof.
  intros B L N A. split; [exact B|]. split; [lia|]. split; [exact N|]. destruct act; [|lia]. specialize (A eq_refl). destruct (zlen d >? 1); lia.
Qed.

(* the panel asks a question of two bytes, outside a session *)
Lemma ask_info e1 e2 c p code : cpi c -> env_typed e1 -> env_typed e2 -> 256 <= e_tx e2 -> phy_state c = PIdle -> state_get_cmd e1 c = Ok (c, code, []) -> code = 97 \/ code = 98 ->
  line c p -> quiet c -> quiet p -> 69 <= tx_buf_size c ->
  exists c1 c2 w, state_update e1 c = Ok (c1, CYield, []) /\ state_update e2 c1 = Ok (c2, CInprog, [OTx w]) /\ cpi c2 /\ quiet c2 /\ phy_state c2 = PReplyWait /\
    reqcore c2 = reqcore (set_cmd_id code c) /\ sc_active (fl c2) = sc_active (fl c) /\
  forall h, hears h w -> exists p1, takes p [] h [code; 0] p1 /\ line_reply c2 p1 /\ linkcore p1 = linkcore p /\ rx_base p1 /\ rb_contents (rb p1) = [] /\ sc_active (fl p1) = sc_active (fl p).
Proof.
  intros I T1 T2 X P G C L Qc Qp N. apply (pan_ask e1 e2 c c code p [code; 0]); try assumption; try reflexivity.
  - lia.
  - destruct C as [-> | ->]; reflexivity.
  - repeat split; reflexivity.
  - apply fits_small; [constructor; [unfold byte; lia|constructor; [unfold byte; lia|constructor]]|change (zlen [code; 0]) with 2; lia|pose proof (tx_size c); lia|intros _; change (zlen [code; 0]) with 2; lia].
  - intros x smb m Cx _ _ _ _ M. unfold build_cmd_switch. rewrite Cx. unfold assert_len. destruct C as [-> | ->]; simpl; replace (2 <? m) with true by lia; reflexivity.
Qed.

Lemma id_hear e p : decode_command e p [97; 0] = Ok (set_reply_id 69 (set_cmd_id 97 (set_reply_id 0 p)), RNone, []).
Proof. unfold decode_command. cbv zeta. change (getb [97; 0] 0) with 97. change (plain_allowed 97) with true. rewrite andb_false_r. reflexivity. Qed.
Lemma cap_hear e p : decode_command e p [98; 0] = Ok (set_reply_id 70 (set_cmd_id 98 (set_reply_id 0 p)), RNone, []).
Proof. unfold decode_command. cbv zeta. change (getb [98; 0] 0) with 98. change (plain_allowed 98) with true. rewrite andb_false_r. reflexivity. Qed.

(* the device's side of a question *)
Lemma tell_info e c p p1 code rid pay w0 : pd_inv p -> hears e w0 -> in_session e p -> takes p [] e [code; 0] p1 -> line_reply c p1 -> quiet c -> rb_contents (rb p1) = [] -> linkcore p1 = linkcore p ->
  code = 97 /\ rid = 69 /\ pay = id_payload (pid p) \/ code = 98 /\ rid = 70 /\ pay = cap_payload (caps p) -> 69 <= tx_buf_size p -> sc_active (fl p1) = false ->
  exists q w, pd_refresh e p = Ok (q, [OTx w]) /\ quiet q /\ timeless (reqcore q) = timeless (reqcore (set_cmd_id code p1)) /\ pd_inv q /\
  forall h, hears h w -> exists c1, takes c [] h pay c1 /\ linkcore c1 = linkcore c /\ rx_base c1 /\ rb_contents (rb c1) = [] /\ line (state_reset false c1) q /\ sc_active (fl c1) = sc_active (fl c).
Proof.
  intros I H S TK L Qc RC LC C N SA.
  assert (PI : pid p1 = pid p) by exact (f_equal (fun x => pid x) LC).
  assert (CA : caps p1 = caps p) by exact (f_equal (fun x => caps x) LC).
  assert (PR : peer_rx p1 = peer_rx p) by exact (f_equal (fun x => peer_rx x) LC).
  assert (D : decode_command e p1 [code; 0] = Ok (set_reply_id rid (set_cmd_id code (set_reply_id 0 p1)), RNone, [])).
  { destruct C as [(-> & -> & _)|(-> & -> & _)]; [apply id_hear|apply cap_hear]. }
  assert (BD : bytes [code; 0]) by (constructor; [unfold byte; lia|constructor; [unfold byte; lia|constructor]]).
  destruct (dev_turn e c p p1 [code; 0] (set_reply_id rid (set_cmd_id code (set_reply_id 0 p1))) RNone [] pay w0 I H S TK L Qc RC BD D) as (q & w & RF & Qq & TR & IQ & G).
  - left; reflexivity.
  - exact (conj eq_refl (conj eq_refl (conj eq_refl eq_refl))).
  - reflexivity.
  - change (reply_id _) with rid. destruct C as [(_ & -> & _)|(_ & -> & _)]; reflexivity.
  - intros [X _]. change (code = 117) in X. lia.
  - change (sc_active (fl _)) with (sc_active (fl p1)). assert (TB : tx_buf_size (set_reply_id rid (set_cmd_id code (set_reply_id 0 p1))) = tx_buf_size p) by (unfold tx_buf_size; simpl; rewrite PR; reflexivity).
    rewrite TB, SA. pose proof (tx_size p). destruct C as [(_ & _ & ->)|(_ & _ & ->)].
    + apply fits_small; [apply id_bytes_ok|change (zlen (id_payload (pid p))) with 13; lia|lia|discriminate].
    + apply fits_small; [|pose proof (PdAnswer.cap_payload_len (caps p)); rewrite cap_payload_eq, zlen_cons in *; pose proof (zlen_nonneg (entries (caps p) 1 16)); lia|lia|discriminate].
      rewrite cap_payload_eq. constructor; [unfold byte; lia|]. apply entries_bytes; [|lia]. destruct (iv_ty p (iv_b p I)) as (_ & _ & X & _). exact X.
  - destruct C as [(_ & _ & ->)|(_ & _ & ->)]; discriminate.
  - intros y smb m Ry _ Cy Py _ M. change (reply_id y = rid) in Ry. change (caps y = caps p1) in Cy. change (pid y = pid p1) in Py.
    destruct C as [(_ & -> & ->)|(_ & -> & ->)].
    + rewrite <- PI, <- Py. apply id_built; assumption.
    + rewrite <- CA, <- Cy. apply cap_built; assumption.
  - exists q, w. cbn [app] in RF. split; [exact RF|]. split; [exact Qq|]. split; [exact TR|]. split; [exact IQ|exact G].
Qed.

(* a round that ends in the state the panel makes of the reply *)
Lemma line_like z q p : seqn q = seqn z -> address q = address z -> pd_mode (fl q) = pd_mode (fl z) -> skip_seq (fl q) = skip_seq (fl z) -> sc_active (fl q) = sc_active (fl z) -> sc q = sc z -> line z p -> line q p.
Proof.
  intros h1 h2 h3 h4 h5 h6 [E L]. assert (E' : ends q p).
  { destruct E as [e1 e2 e3 e4 e5]. constructor; rewrite ?h3, ?h4, ?h2; assumption. }
  split; [exact E'|]. destruct L as [L | L].
  - left. rewrite h5, h1. exact L.
  - right. destruct L as [e1 e2 e3 e4 e5 e6 e7]. constructor; rewrite ?h5, ?h1, ?h6; assumption.
Qed.
Lemma line_inactive c p : cpi c -> line c p -> state c <> SOnline -> state c <> SSetScbk -> sc_active (fl c) = false /\ sc_active (fl p) = false.
Proof.
  intros I [_ [(A & B & _)|L]] N1 N2; [exact (conj A B)|]. destruct (ci_act c I (proj1 (is_act c p L))); contradiction.
Qed.

(* what both sides know of each other and how they are configured *)
Record knows (c p c3 p1 : pd) : Prop := {
  kn_c : cpi c3 /\ pd_inv p1;
  kn_line : line c3 p1;
  kn_quiet : quiet c3 /\ quiet p1;
  kn_dev : pid p1 = pid p /\ caps p1 = caps p /\ peer_rx p1 = peer_rx p
}.
Lemma id_round e1 e2 c p : cpi c -> pd_inv p -> env_typed e1 -> env_typed e2 -> 256 <= e_tx e2 -> state c = SInit -> phy_state c = PIdle -> line c p -> quiet c -> quiet p ->
  69 <= tx_buf_size c -> 69 <= tx_buf_size p ->
  moves (cp_do (Update e1) c) (fun c1 => says (cp_do (Update e2) c1) (fun c2 w1 =>
  forall e3, hears e3 w1 -> says (pd_do (Refresh e3) p) (fun p1 w2 =>
  forall e4, hears e4 w2 -> moves (cp_do (Update e4) c2) (fun c3 =>
  knows c p c3 p1 /\ state c3 = SCapdet /\ phy_state c3 = PIdle /\ pid c3 = id_wire (pid p) /\ caps c3 = caps c /\ peer_rx c3 = peer_rx c)))).
Proof.
  intros I Ip T1 T2 X2 St Ph L Qc Qp N1 N2.
  destruct (line_inactive c p I L) as [Ac Ap]; [rewrite St; discriminate|rewrite St; discriminate|].
  destruct (ask_info e1 e2 c p 97 I T1 T2 X2 Ph) as (c1 & c2 & w1 & U1 & U2 & I2 & Q2 & P2 & R2 & A2 & G1); [unfold state_get_cmd; rewrite St; reflexivity|left; reflexivity|exact L|exact Qc|exact Qp|exact N1|].
  exists c1. split; [unfold cp_do; rewrite U1; reflexivity|]. exists c2, w1. split; [unfold cp_do; rewrite U2; reflexivity|].
  intros e3 H3. destruct (G1 e3 H3) as (p0 & TK & L2 & LC & RX & RB & A0). rewrite Ap in A0.
  destruct (tell_info e3 c2 p p0 97 69 (id_payload (pid p)) w1 Ip H3) as (p1 & w2 & RF & Qp1 & TR & Ip1 & G2); [intros Y; rewrite Ap in Y; discriminate|exact TK|exact L2|exact Q2|exact RB|exact LC|left; auto|exact N2|exact A0|].
  exists p1, w2. split; [exact RF|]. intros e4 H4. destruct (G2 e4 H4) as (c0 & TC & LK & RX0 & RB0 & LN & AC).
  pose proof (pan_done e4 c2 _ c0 _ P2 TC (id_read e4 c0 (pid p))) as PD.
  assert (S2 : state c2 = SInit) by exact (eq_trans (f_equal (fun x => state x) R2) St).
  assert (C2 : cmd_id c2 = 97) by exact (f_equal (fun x => cmd_id x) R2).
  rewrite S2 in PD.
  assert (V1 : caps c0 = caps c2) by exact (f_equal (fun x => caps x) LK). assert (V2 : caps c2 = caps c) by exact (f_equal (fun x => caps x) R2).
  assert (V3 : peer_rx c0 = peer_rx c2) by exact (f_equal (fun x => peer_rx x) LK). assert (V4 : peer_rx c2 = peer_rx c) by exact (f_equal (fun x => peer_rx x) R2).
  set (z := set_pid (id_wire (pid p)) (set_reply_id 69 c0)) in *.
  destruct (init_end e4 z) as (c3 & AE & K3 & S3); [exact (eq_trans (f_equal (fun x => state x) LK) S2)|reflexivity|exact (eq_trans (f_equal (fun x => cmd_id x) LK) C2)|].
  rewrite AE in PD. assert (DO : cp_do (Update e4) c2 = Ok (c3, [])) by (unfold cp_do; rewrite PD; reflexivity).
  exists c3. split; [exact DO|].
  split; [constructor|].
  - split; [|exact Ip1]. eapply (cp_do_inv (Update e4) c2 c3); [apply H4|exact I2|exact DO].
  - apply (kept_line z c3 p1 K3). apply (line_like (state_reset false c0) z p1); try reflexivity. exact LN.
  - split; [|exact Qp1]. apply (kept_quiet z c3 K3); [exact RX0|exact RB0].
  - assert (E1 : pid p0 = pid p) by exact (f_equal (fun x => pid x) LC). assert (E2 : caps p0 = caps p) by exact (f_equal (fun x => caps x) LC). assert (E3 : peer_rx p0 = peer_rx p) by exact (f_equal (fun x => peer_rx x) LC).
    split; [exact (eq_trans (f_equal (fun x => pid x) TR) E1)|]. split; [exact (eq_trans (f_equal (fun x => caps x) TR) E2)|exact (eq_trans (f_equal (fun x => peer_rx x) TR) E3)].
  - split; [exact S3|]. split; [apply (kp_phy _ _ K3)|]. split; [exact (kp_pid _ _ K3)|].
    split; [rewrite (kp_caps _ _ K3); exact (eq_trans V1 V2)|rewrite (kp_peer _ _ K3); exact (eq_trans V3 V4)].
Qed.

Lemma cap_round e1 e2 c p : cpi c -> pd_inv p -> env_typed e1 -> env_typed e2 -> 256 <= e_tx e2 -> state c = SCapdet -> phy_state c = PIdle -> line c p -> quiet c -> quiet p ->
  69 <= tx_buf_size c -> 69 <= tx_buf_size p ->
  moves (cp_do (Update e1) c) (fun c1 => says (cp_do (Update e2) c1) (fun c2 w1 =>
  forall e3, hears e3 w1 -> says (pd_do (Refresh e3) p) (fun p1 w2 =>
  forall e4, hears e4 w2 -> exists c3 o, cp_do (Update e4) c2 = Ok (c3, o) /\
  knows c p c3 p1 /\ phy_state c3 = PIdle /\ pid c3 = pid c /\ caps c3 = read_caps (length (entries (caps p) 1 16)) (entries (caps p) 1 16) (caps c)))).
Proof.
  intros I Ip T1 T2 X2 St Ph L Qc Qp N1 N2.
  destruct (line_inactive c p I L) as [Ac Ap]; [rewrite St; discriminate|rewrite St; discriminate|].
  destruct (ask_info e1 e2 c p 98 I T1 T2 X2 Ph) as (c1 & c2 & w1 & U1 & U2 & I2 & Q2 & P2 & R2 & A2 & G1); [unfold state_get_cmd; rewrite St; reflexivity|right; reflexivity|exact L|exact Qc|exact Qp|exact N1|].
  exists c1. split; [unfold cp_do; rewrite U1; reflexivity|]. exists c2, w1. split; [unfold cp_do; rewrite U2; reflexivity|].
  intros e3 H3. destruct (G1 e3 H3) as (p0 & TK & L2 & LC & RX & RB & A0). rewrite Ap in A0.
  destruct (tell_info e3 c2 p p0 98 70 (cap_payload (caps p)) w1 Ip H3) as (p1 & w2 & RF & Qp1 & TR & Ip1 & G2); [intros Y; rewrite Ap in Y; discriminate|exact TK|exact L2|exact Q2|exact RB|exact LC|right; auto|exact N2|exact A0|].
  exists p1, w2. split; [exact RF|]. intros e4 H4. destruct (G2 e4 H4) as (c0 & TC & LK & RX0 & RB0 & LN & AC).
  pose proof (pan_done e4 c2 _ c0 _ P2 TC (cap_read e4 c0 (caps p))) as PD.
  assert (S2 : state c2 = SCapdet) by exact (eq_trans (f_equal (fun x => state x) R2) St).
  assert (C2 : cmd_id c2 = 98) by exact (f_equal (fun x => cmd_id x) R2).
  rewrite S2 in PD.
  assert (V1 : caps c0 = caps c2) by exact (f_equal (fun x => caps x) LK). assert (V2 : caps c2 = caps c) by exact (f_equal (fun x => caps x) R2).
  assert (V3 : pid c0 = pid c2) by exact (f_equal (fun x => pid x) LK). assert (V4 : pid c2 = pid c) by exact (f_equal (fun x => pid x) R2).
  destruct (pdcap_fields (set_reply_id 70 c0) (entries (caps p) 1 16)) as (f1 & f2 & f3 & f4 & f5 & f6 & f7 & f8 & f9 & f10 & f11 & f12 & f13 & f14).
  set (z := read_pdcap (set_reply_id 70 c0) (entries (caps p) 1 16)) in *. clearbody z.
  assert (S0 : state z = SCapdet) by (rewrite f11; exact (eq_trans (f_equal (fun x => state x) LK) S2)).
  assert (C0 : cmd_id z = 98) by (rewrite f13; exact (eq_trans (f_equal (fun x => cmd_id x) LK) C2)).
  assert (Q0 : rq_restart z = false) by (rewrite f14; exact (eq_trans (f_equal (fun x => rq_restart x) LK) (ci_rq c2 I2))).
  assert (AZ : sc_active (fl z) = false) by (rewrite f7; change (sc_active (fl c0) = false); rewrite AC, A2; exact Ac).
  destruct (cap_end e4 z S0 f12 C0 Q0 AZ) as (c3 & o & AE & K3).
  rewrite AE in PD. assert (DO : cp_do (Update e4) c2 = Ok (c3, o)) by (unfold cp_do; rewrite PD; reflexivity).
  exists c3, o. split; [exact DO|].
  split; [constructor|].
  - split; [|exact Ip1]. eapply (cp_do_inv (Update e4) c2 c3); [apply H4|exact I2|exact DO].
  - apply (kept_line z c3 p1 K3). apply (line_like (state_reset false c0) z p1); try assumption.
  - split; [|exact Qp1]. apply (kept_quiet z c3 K3); [unfold rx_base in *; rewrite f9, f10; exact RX0|rewrite f9; exact RB0].
  - assert (E1 : pid p0 = pid p) by exact (f_equal (fun x => pid x) LC). assert (E2 : caps p0 = caps p) by exact (f_equal (fun x => caps x) LC). assert (E3 : peer_rx p0 = peer_rx p) by exact (f_equal (fun x => peer_rx x) LC).
    split; [exact (eq_trans (f_equal (fun x => pid x) TR) E1)|]. split; [exact (eq_trans (f_equal (fun x => caps x) TR) E2)|exact (eq_trans (f_equal (fun x => peer_rx x) TR) E3)].
  - split; [apply (kp_phy _ _ K3)|]. split; [rewrite (kp_pid _ _ K3), f2|rewrite (kp_caps _ _ K3), f1].
    + exact (eq_trans V3 V4).
    + change (caps (set_reply_id 70 c0)) with (caps c0). rewrite V1, V2. reflexivity.
Qed.

(* an event *)
Lemma poll_hear e p ev t caps0 pay : evq p = ev :: t -> event_payload caps0 ev = Some pay -> enforce (fl p) = false \/ sc_active (fl p) = true ->
  decode_command e p [96] = Ok (set_reply_id (event_reply ev) (set_eph (EphEv ev) (set_evq t (set_cmd_id 96 (set_reply_id 0 p)))), RNone, []).
Proof.
  intros Q P E. destruct (ev_reply _ _ _ P) as (N & _ & _). unfold decode_command. cbv zeta. change (getb [96] 0) with 96. change (from [96] 1) with (@nil Z).
  change (fl (set_cmd_id 96 (set_reply_id 0 p))) with (fl p).
  replace (enforce (fl p) && negb (sc_active (fl p))) with false by (destruct E as [-> | ->]; [reflexivity|rewrite andb_false_r; reflexivity]).
  cbn [andb]. unfold decode_switch. simpl. rewrite Q. unfold translate_event. replace (event_reply ev =? 0) with false by lia. reflexivity.
Qed.
Lemma poll_pending e c : state c = SOnline -> cmdq c = [] -> no_transfer c -> e_now e - tstamp c > 50 -> state_get_cmd e c = Ok (set_tstamp (e_now e) c, 96, []).
Proof.
  intros S Q F T. unfold state_get_cmd. rewrite S. unfold get_online_command. rewrite Q. unfold file_tx_get_command, no_transfer in *.
  change POLL_TIMEOUT with 50. destruct (file c) as [f|]; [destruct F as [-> | ->]|]; cbn [Z.eqb negb]; replace (e_now e - tstamp c >? 50) with true by lia; reflexivity.
Qed.
Lemma ask_poll e1 e2 c p : cpi c -> env_typed e1 -> env_typed e2 -> 256 <= e_tx e2 -> phy_state c = PIdle -> state c = SOnline -> cmdq c = [] -> no_transfer c -> e_now e1 - tstamp c > 50 ->
  line c p -> quiet c -> quiet p -> 69 <= tx_buf_size c ->
  exists c1 c2 w, state_update e1 c = Ok (c1, CYield, []) /\ state_update e2 c1 = Ok (c2, CInprog, [OTx w]) /\ cpi c2 /\ quiet c2 /\ phy_state c2 = PReplyWait /\
    reqcore c2 = reqcore (set_cmd_id 96 (set_tstamp (e_now e1) c)) /\ sc_active (fl c2) = sc_active (fl c) /\
  forall h, hears h w -> exists p1, takes p [] h [96] p1 /\ line_reply c2 p1 /\ linkcore p1 = linkcore p /\ rx_base p1 /\ rb_contents (rb p1) = [] /\ sc_active (fl p1) = sc_active (fl p).
Proof.
  intros I T1 T2 X P S Q F T L Qc Qp N. apply (pan_ask e1 e2 c (set_tstamp (e_now e1) c) 96 p [96]); try assumption; try reflexivity.
  - apply poll_pending; assumption.
  - repeat split; reflexivity.
  - apply fits_small; [constructor; [unfold byte; lia|constructor]|change (zlen [96]) with 1; lia|pose proof (tx_size c); lia|intros _; change (zlen [96]) with 1; lia].
  - intros x smb m Cx _ _ _ _ M. unfold build_cmd_switch. rewrite Cx. unfold assert_len. simpl. replace (1 <? m) with true by lia; reflexivity.
Qed.
Lemma tell_event e c p p1 ev t pay w0 : pd_inv p -> hears e w0 -> in_session e p -> takes p [] e [96] p1 -> line_reply c p1 -> quiet c -> rb_contents (rb p1) = [] -> linkcore p1 = linkcore p ->
  sc_active (fl p1) = sc_active (fl p) -> enforce (fl p) = false \/ sc_active (fl p) = true -> evq p = ev :: t -> event_payload (caps p) ev = Some pay -> ev_in_range ev ->
  fits (tx_buf_size p) (sc_active (fl p)) pay ->
  exists q w, pd_refresh e p = Ok (q, [OTx w]) /\ quiet q /\ evq q = t /\ pd_inv q /\
  forall h, hears h w -> exists c1, takes c [] h pay c1 /\ linkcore c1 = linkcore c /\ rx_base c1 /\ rb_contents (rb c1) = [] /\ line (state_reset false c1) q /\ sc_active (fl c1) = sc_active (fl c).
Proof.
  intros I H S TK L Qc RC LC SA EN EQ P R F.
  assert (CA : caps p1 = caps p) by exact (f_equal (fun x => caps x) LC).
  assert (PR : peer_rx p1 = peer_rx p) by exact (f_equal (fun x => peer_rx x) LC).
  assert (EQ1 : evq p1 = ev :: t) by exact (eq_trans (f_equal (fun x => evq x) LC) EQ).
  assert (EF : enforce (fl p1) = enforce (fl p)) by exact (f_equal (fun x => enforce (fl x)) LC).
  assert (EN1 : enforce (fl p1) = false \/ sc_active (fl p1) = true) by (rewrite EF, SA; exact EN).
  pose proof (poll_hear e p1 ev t (caps p) pay EQ1 P EN1) as D.
  destruct (ev_reply _ _ _ P) as (N0 & IN & N1).
  assert (BD : bytes [96]) by (constructor; [unfold byte; lia|constructor]).
  set (p3 := set_reply_id (event_reply ev) (set_eph (EphEv ev) (set_evq t (set_cmd_id 96 (set_reply_id 0 p1))))) in *.
  destruct (dev_turn e c p p1 [96] p3 RNone [] pay w0 I H S TK L Qc RC BD D) as (q & w & RF & Qq & TR & IQ & G).
  - left; reflexivity.
  - exact (conj eq_refl (conj eq_refl (conj eq_refl eq_refl))).
  - reflexivity.
  - change (reply_id p3) with (event_reply ev). clear - IN. destruct IN as [<-|[<-|[<-|[<-|[<-|[<-|[<-|[]]]]]]]]; reflexivity.
  - intros [X _]. discriminate.
  - change (sc_active (fl p3)) with (sc_active (fl p1)). assert (TB : tx_buf_size p3 = tx_buf_size p) by (unfold tx_buf_size; change (peer_rx p3) with (peer_rx p1); rewrite PR; reflexivity).
    rewrite TB, SA. exact F.
  - rewrite N1. clear - IN. intros X. rewrite X in IN. simpl in IN. lia.
  - intros y smb m Ry Ey Cy _ M _. apply (ev_built e y smb m ev pay (caps p)); [exact Ry|exact Ey|rewrite Cy; exact CA|exact P|exact R|exact M].
  - exists q, w. cbn [app] in RF. split; [exact RF|]. split; [exact Qq|]. split; [exact (f_equal (fun x => evq x) TR)|]. split; [exact IQ|exact G].
Qed.
Lemma ev_round e1 e2 c p ev t pay : cpi c -> pd_inv p -> env_typed e1 -> env_typed e2 -> 256 <= e_tx e2 -> state c = SOnline -> phy_state c = PIdle -> rq_offline c = false ->
  cmdq c = [] -> no_transfer c -> e_now e1 - tstamp c > 50 -> line c p -> quiet c -> quiet p -> 69 <= tx_buf_size c -> fits (tx_buf_size p) (sc_active (fl p)) pay ->
  enforce (fl p) = false \/ sc_active (fl p) = true -> evq p = ev :: t -> event_payload (caps p) ev = Some pay -> ev_in_range ev -> items_known (caps c) ev ->
  moves (cp_do (Update e1) c) (fun c1 => says (cp_do (Update e2) c1) (fun c2 w1 =>
  forall e3, hears e3 w1 -> in_session e3 p -> says (pd_do (Refresh e3) p) (fun p1 w2 =>
  evq p1 = t /\
  forall e4, hears e4 w2 -> e_evcb e4 = true -> exists c3, cp_do (Update e4) c2 = Ok (c3, [OEv (idx c) (upto_ev ev)]) /\ line c3 p1 /\ quiet c3 /\ quiet p1))).
Proof.
  intros I Ip T1 T2 X2 St Ph Off CQ NT Tm L Qc Qp N1 F EN EQ P R IK.
  destruct (ask_poll e1 e2 c p I T1 T2 X2 Ph St CQ NT Tm L Qc Qp N1) as (c1 & c2 & w1 & U1 & U2 & I2 & Q2 & P2 & R2 & A2 & G1).
  exists c1. split; [unfold cp_do; rewrite U1; reflexivity|]. exists c2, w1. split; [unfold cp_do; rewrite U2; reflexivity|].
  intros e3 H3 SS. destruct (G1 e3 H3) as (p0 & TK & L2 & LC & RX & RB & A0).
  destruct (tell_event e3 c2 p p0 ev t pay w1 Ip H3 SS TK L2 Q2 RB LC A0 EN EQ P R F) as (p1 & w2 & RF & Qp1 & EV & Ip1 & G2).
  exists p1, w2. split; [exact RF|]. split; [exact EV|]. intros e4 H4 CB. destruct (G2 e4 H4) as (c0 & TC & LK & RX0 & RB0 & LN & AC).
  assert (V1 : caps c0 = caps c2) by exact (f_equal (fun x => caps x) LK). assert (V2 : caps c2 = caps c) by exact (f_equal (fun x => caps x) R2).
  assert (V3 : idx c0 = idx c2) by exact (f_equal (fun x => idx x) LK). assert (V4 : idx c2 = idx c) by exact (f_equal (fun x => idx x) R2).
  assert (V5 : rq_offline c0 = rq_offline c2) by exact (f_equal (fun x => rq_offline x) LK). assert (V6 : rq_offline c2 = rq_offline c) by exact (f_equal (fun x => rq_offline x) R2).
  assert (IK0 : items_known (caps c0) ev) by (rewrite V1, V2; exact IK).
  pose proof (pan_done e4 c2 _ c0 _ P2 TC (ev_read e4 c0 (caps p) ev pay P R IK0)) as PD.
  assert (S2 : state c2 = SOnline) by exact (eq_trans (f_equal (fun x => state x) R2) St).
  assert (C2 : cmd_id c2 = 96) by exact (f_equal (fun x => cmd_id x) R2).
  rewrite S2 in PD.
  set (z := got_event (upto_ev ev) (set_reply_id (event_reply ev) c0)) in *.
  destruct (event_end e4 z (upto_ev ev)) as (c3 & AE & K3).
  - exact (eq_trans (f_equal (fun x => state x) LK) S2).
  - change (reply_id z) with (event_reply ev). destruct (ev_reply _ _ _ P) as (_ & IN & _). clear - IN. destruct IN as [<-|[<-|[<-|[<-|[<-|[<-|[<-|[]]]]]]]]; reflexivity.
  - exact (eq_trans (f_equal (fun x => cmd_id x) LK) C2).
  - exact (eq_trans (f_equal (fun x => rq_restart x) LK) (ci_rq c2 I2)).
  - change (rq_offline c0 = false). rewrite V5, V6. exact Off.
  - reflexivity.
  - reflexivity.
  - exact CB.
  - rewrite AE in PD. change (idx z) with (idx c0) in PD. rewrite V3, V4 in PD.
    exists c3. split; [unfold cp_do; rewrite PD; reflexivity|].
    split; [|split; [|exact Qp1]].
    + apply (kept_line z c3 p1 K3). apply (line_like (state_reset false c0) z p1); try reflexivity. exact LN.
    + apply (kept_quiet z c3 K3); [exact RX0|exact RB0].
Qed.
