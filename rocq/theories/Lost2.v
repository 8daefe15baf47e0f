(** A lost command, a lost reply. *)
From Verif Require Import Base ListLemmas Crc SpecCrc CrcProofs CrcBurst Aes AesProofs Rb RbProofs
  Types Sc ScProofs Phy PhyCheck File Pd Cp PdRun SpecRx SpecFrame SpecSec SpecSession SpecCmd SpecApp SpecPd SpecLink RxProofs RxFwd PdRx PdCore PhyTx PdTx PdReply
  PdStep PdWire PdFwd PdSec PdHist2 MacProofs WireSec CpCtx SpecCp SpecCpRun CpTx CpRx CpStep CpInv CpEdge CpFacts CpSum CpFwd Chunk Trip ChunkRun LinkProofs LinkStep CpSend SpecHand SpecTalk Hand Line Talk Talk2 Talk3 Talk4 Talk5 PdPlain PdRefuse SpecLost Lost.
From Coq Require Import ZifyBool ZifyNat.
Ltac Zify.zify_post_hook ::= Z.div_mod_to_equations.
Local Opaque aes_ecb_encrypt aes_cbc_encrypt aes_cbc_decrypt mac_of RB_SIZE osdp_mac enc1 osdp_encrypt encrypt_data.

Lemma lost_cmd e1 e2 c c0 code p d : cpi c -> pd_inv p -> env_typed e1 -> env_typed e2 -> 256 <= e_tx e2 -> phy_state c = PIdle -> phy_state c0 = PIdle -> state c0 = SOnline ->
  state_get_cmd e1 c = Ok (c0, code, []) -> 0 < code -> in_sc_handshake false code = false -> keeps_link c c0 -> peer_rx c0 = peer_rx c -> retry c0 < 8 ->
  line c p -> sc_active (fl c) = false -> seqn p = seqn c -> quiet c -> quiet p -> 69 <= tx_buf_size p -> fits (tx_buf_size c) false d ->
  (forall e x smb m, cmd_id x = code -> eph x = eph c0 -> sc_active (fl x) = sc_active (fl c) -> zlen d + 2 <= m -> 60 <= m -> build_cmd_switch e x smb m = Ok (x, Some d, None, [])) ->
  exists c1 c2 w, state_update e1 c = Ok (c1, CYield, []) /\ state_update e2 c1 = Ok (c2, CInprog, [OTx w]) /\
  forall e3, nothing e3 -> e_now e3 - e_now e2 > 200 -> exists c3, state_update e3 c2 = Ok (c3, CYield, []) /\
  forall e4, env_typed e4 -> 256 <= e_tx e4 -> 800 <= e_now e4 - e_now e3 -> exists c4 w2, state_update e4 c3 = Ok (c4, CInprog, [OTx w2]) /\
  forall e5, hears e5 w2 -> exists p1 w3, pd_refresh e5 p = Ok (p1, [OTx w3]) /\ app_view p1 = app_view p /\
  forall e6, hears e6 w3 -> exists c5 o, state_update e6 c4 = Ok (c5, CYield, o) /\ state c5 = SOffline.
Proof.
  intros I Ip T1 T2 X2 P P0 St G C0 HS K PX RT L Ac SE Qc Qp N F BS. pose proof (pan_start e1 c c0 code P P0 G C0) as U1.
  set (c1 := set_phy_state PSend (set_cmd_id code c0)) in *. pose proof (keeps_send code c c0 K) as K1. fold c1 in K1.
  assert (I1 : cpi c1) by (apply (cp_do_inv (Update e1) c c1 [] T1 I); unfold cp_do; rewrite U1; reflexivity).
  assert (TB : tx_buf_size c1 = tx_buf_size c) by (unfold tx_buf_size; change (peer_rx c1) with (peer_rx c0); rewrite PX; reflexivity).
  assert (FL : sc_active (fl c1) = false) by (rewrite (proj1 K1); exact Ac).
  destruct L as [[E1 E2 E3 [E4 E5] E6] L]. destruct L as [(_ & Ap & Sc & Sp & _)|Y]; [|destruct (is_act c p Y); congruence].
  assert (A1 : address c1 = address c) by apply K1. assert (S1 : seqn c1 = seqn c) by apply K1.
  destruct (plain_sends e2 c1 d I1 T2 eq_refl HS X2 (keeps_quiet _ _ K1 Qc) FL ltac:(rewrite A1; exact E5) ltac:(rewrite TB; exact F)) as (c2 & mk & U2 & MK & I2 & Q2 & P2 & R2 & A2 & S2 & AD2 & TS2).
  { apply BS; try reflexivity; [exact (eq_trans FL (eq_sym Ac))| |]; apply (room_cmd c1 d HS); rewrite TB, FL; exact F. }
  eexists c1, c2, _. split; [exact U1|]. split; [exact U2|].
  assert (M2 : pd_mode (fl c2) = false) by (apply (cv_mode c2), I2).
  assert (R3 : retry c2 = retry c0) by exact (f_equal (fun x => retry x) R2).
  intros e3 [T3 H3] N3. pose proof (pan_late e3 c2 P2 Q2 M2 H3 ltac:(lia) ltac:(lia)) as U3.
  exists (again (e_now e3) c2). split; [exact U3|].
  assert (I3 : cpi (again (e_now e3) c2)) by (apply (cp_do_inv (Update e3) c2 _ [] T3 I2); unfold cp_do; rewrite U3; reflexivity).
  intros e4 T4 X4 N4.
  apply (resent_refused e4 (again (e_now e3) c2) p d I3 Ip T4 X4 eq_refl ltac:(exact N4)); try assumption.
  - change (cmd_id (again (e_now e3) c2)) with (cmd_id c2). assert (Y : cmd_id c2 = code) by exact (f_equal (fun x => cmd_id x) R2). rewrite Y. exact HS.
  - exact (eq_trans (f_equal (fun x => state x) R2) St).
  - change (address p = address c2). congruence.
  - change (0 <= address c2 < 127). rewrite AD2, A1. exact E5.
  - change (seqn c2 = seq_next (seqn p)). congruence.
  - assert (Y : tx_buf_size (again (e_now e3) c2) = tx_buf_size c).
    { rewrite <- TB. unfold tx_buf_size. change (peer_rx (again (e_now e3) c2)) with (peer_rx c2). assert (Y : peer_rx c2 = peer_rx c1) by exact (f_equal (fun x => peer_rx x) R2). rewrite Y. reflexivity. }
    rewrite Y. exact F.
  - intros x smb m B1 B2 B3 B4. apply BS.
    + refine (eq_trans B1 _). exact (f_equal (fun x => cmd_id x) R2).
    + refine (eq_trans B2 _). exact (f_equal (fun x => eph x) R2).
    + refine (eq_trans B4 _). change (sc_active (fl c2) = sc_active (fl c)). congruence.
Qed.

(* a reply to a poll that says nothing *)
Lemma ack_end e z : state z = SOnline -> reply_id z = 64 -> cmd_id z = 96 -> rq_restart z = false -> rq_offline z = false -> rq_event z = false ->
  exists q, after_phy e SOnline (done e z) [] = Ok (q, CYield, []) /\ kept z q /\ state q = (if sc_should_retry e (state_reset false (done e z)) then SChlng else SOnline) /\ retry q = retry z.
Proof.
  intros S R C RR RO RE. rewrite after_done. destruct (done_fields e z) as (f1 & f2 & f3 & f4 & f5 & f6 & f7 & f8 & f9). pose proof (done_kept e z) as K.
  assert (f10 : retry (done e z) = retry z) by (unfold done; cbv zeta; destruct (sc_active _); reflexivity). generalize dependent (done e z). intros y f1 f2 f3 f4 f5 f6 f7 f8 f9 K f10.
  unfold state_check_reply. rewrite f2, S. cbv iota. unfold check_online_response. rewrite f3, f4, C, R.
  change (64 =? REPLY_ACK) with true. change (96 =? CMD_KEYSET) with false. cbv iota. rewrite bind_Ok.
  unfold notify_command_status, app_cmd_of. rewrite f4, C. cbn [Z.eqb Pos.eqb CMD_OUT CMD_LED CMD_BUZ CMD_TEXT CMD_COMSET CMD_ISTAT CMD_OSTAT CMD_LSTAT CMD_RSTAT CMD_KEYSET CMD_MFG orb andb app].
  assert (Y : state (state_reset false y) = SOnline /\ rq_restart (state_reset false y) = false /\ rq_offline (state_reset false y) = false /\ rq_event (state_reset false y) = false /\ sc_active (fl (state_reset false y)) = sc_active (fl z) /\ retry (state_reset false y) = retry z).
  { change (state y = SOnline /\ rq_restart y = false /\ rq_offline y = false /\ rq_event y = false /\ sc_active (fl y) = sc_active (fl z) /\ retry y = retry z).
    rewrite f1. repeat split; congruence. }
  generalize dependent (state_reset false y). intros x K (Y1 & Y2 & Y3 & Y4 & Y5 & Y6). clear f1 f2 f3 f4 f5 f6 f7 f8 f9 f10.
  unfold finish_update, next_ok_state. rewrite Y1. cbv iota. rewrite bind_Ok. unfold do_requests. rewrite Y1. cbn [st_eqb orb]. rewrite Y2, Y3, Y4.
  destruct (sc_should_retry e x) eqn:SR; cbn [st_eqb state_change app].
  - eexists. split; [reflexivity|]. split; [|split; [reflexivity|]]; [apply kept_setup; [exact K|]|].
    unfold sc_should_retry in SR. rewrite <- Y5. destruct (sc_active (fl x)); [|reflexivity]. rewrite andb_false_r in SR. discriminate.
    + destruct (setup_sc (e_rand e) x) as (s & ->). exact Y6.
  - eexists. split; [reflexivity|]. split; [exact K|split; [exact Y1|exact Y6]].
Qed.

(* the device answers a poll when it has nothing to tell *)
Lemma poll_hear_none e p : evq p = [] -> enforce (fl p) = false \/ sc_active (fl p) = true ->
  decode_command e p [96] = Ok (set_reply_id 64 (set_cmd_id 96 (set_reply_id 0 p)), RNone, []).
Proof.
  intros Q E. unfold decode_command. cbv zeta. change (getb [96] 0) with 96. change (from [96] 1) with (@nil Z).
  change (fl (set_cmd_id 96 (set_reply_id 0 p))) with (fl p).
  replace (enforce (fl p) && negb (sc_active (fl p))) with false by (destruct E as [-> | ->]; [reflexivity|rewrite andb_false_r; reflexivity]).
  cbn [andb]. unfold decode_switch. simpl. rewrite Q. reflexivity.
Qed.

(* what a device keeps when it answers a poll *)
Definition dev_same (p q : pd) : Prop := enforce (fl q) = enforce (fl p) /\ sc_active (fl q) = sc_active (fl p) /\ tx_buf_size q = tx_buf_size p.

Lemma tell_none e c p p1 w0 : pd_inv p -> hears e w0 -> in_session e p -> takes p [] e [96] p1 -> line_reply c p1 -> quiet c -> rb_contents (rb p1) = [] -> linkcore p1 = linkcore p ->
  sc_active (fl p1) = sc_active (fl p) -> enforce (fl p) = false \/ sc_active (fl p) = true -> evq p = [] -> 69 <= tx_buf_size p ->
  exists q w, pd_refresh e p = Ok (q, [OTx w]) /\ quiet q /\ evq q = [] /\ pd_inv q /\ enforce (fl q) = enforce (fl p) /\ tx_buf_size q = tx_buf_size p /\ (sc_active (fl c) = false -> line c q) /\
  forall h, hears h w -> exists c1, takes c [] h [64] c1 /\ linkcore c1 = linkcore c /\ rx_base c1 /\ rb_contents (rb c1) = [] /\ line (state_reset false c1) q /\ sc_active (fl c1) = sc_active (fl c).
Proof.
  intros I H S TK L Qc RC LC SA EN EQ N.
  assert (PR : peer_rx p1 = peer_rx p) by exact (f_equal (fun x => peer_rx x) LC).
  assert (EQ1 : evq p1 = []) by exact (eq_trans (f_equal (fun x => evq x) LC) EQ).
  assert (EF : enforce (fl p1) = enforce (fl p)) by exact (f_equal (fun x => enforce (fl x)) LC).
  assert (EN1 : enforce (fl p1) = false \/ sc_active (fl p1) = true) by (rewrite EF, SA; exact EN).
  pose proof (poll_hear_none e p1 EQ1 EN1) as D. assert (BD : bytes [96]) by (constructor; [unfold byte; lia|constructor]).
  set (p3 := set_reply_id 64 (set_cmd_id 96 (set_reply_id 0 p1))) in *.
  assert (TB : tx_buf_size p3 = tx_buf_size p) by (unfold tx_buf_size; change (peer_rx p3) with (peer_rx p1); rewrite PR; reflexivity).
  destruct (dev_turn2 e c p p1 [96] p3 RNone [] [64] w0 I H S TK L Qc RC BD D) as (q & w & RF & Qq & TR & IQ & LN & G).
  - left; reflexivity.
  - exact (conj eq_refl (conj eq_refl (conj eq_refl eq_refl))).
  - reflexivity.
  - reflexivity.
  - intros [X _]. discriminate.
  - rewrite TB. apply fits_small; [constructor; [unfold byte; lia|constructor]|change (zlen [64]) with 1; lia|pose proof (tx_size p); lia|intros _; change (zlen [64]) with 1; lia].
  - discriminate.
  - intros y smb m Ry _ _ _ M _. unfold build_switch. rewrite Ry. change (reply_id p3) with 64. change (zlen [64]) with 1 in M. change (64 =? REPLY_ACK) with true. cbv zeta iota. unfold assert_len.
    replace (1 <? m) with true by lia. reflexivity.
  - exists q, w. cbn [app] in RF. split; [exact RF|]. split; [exact Qq|]. split; [exact (eq_trans (f_equal (fun x => evq x) TR) EQ1)|]. split; [exact IQ|].
    split; [exact (eq_trans (f_equal (fun x => enforce (fl x)) TR) EF)|].
    split; [|split; [exact LN|exact G]]. assert (Y : peer_rx q = peer_rx p1) by exact (f_equal (fun x => peer_rx x) TR). unfold tx_buf_size. rewrite Y, PR. reflexivity.
Qed.

(* ... and when it has an event *)
Lemma tell_some e c p p1 ev t pay w0 : pd_inv p -> hears e w0 -> in_session e p -> takes p [] e [96] p1 -> line_reply c p1 -> quiet c -> rb_contents (rb p1) = [] -> linkcore p1 = linkcore p ->
  sc_active (fl p1) = sc_active (fl p) -> enforce (fl p) = false \/ sc_active (fl p) = true -> evq p = ev :: t -> event_payload (caps p) ev = Some pay -> ev_in_range ev ->
  fits (tx_buf_size p) (sc_active (fl p)) pay ->
  exists q w, pd_refresh e p = Ok (q, [OTx w]) /\ quiet q /\ evq q = t /\ pd_inv q /\ enforce (fl q) = enforce (fl p) /\ tx_buf_size q = tx_buf_size p /\ (sc_active (fl c) = false -> line c q).
Proof.
  intros I H S TK L Qc RC LC SA EN EQ P R F.
  assert (CA : caps p1 = caps p) by exact (f_equal (fun x => caps x) LC).
  assert (PR : peer_rx p1 = peer_rx p) by exact (f_equal (fun x => peer_rx x) LC).
  assert (EQ1 : evq p1 = ev :: t) by exact (eq_trans (f_equal (fun x => evq x) LC) EQ).
  assert (EF : enforce (fl p1) = enforce (fl p)) by exact (f_equal (fun x => enforce (fl x)) LC).
  assert (EN1 : enforce (fl p1) = false \/ sc_active (fl p1) = true) by (rewrite EF, SA; exact EN).
  pose proof (poll_hear e p1 ev t (caps p) pay EQ1 P EN1) as D.
  destruct (ev_reply _ _ _ P) as (N0 & IN & N1).
  assert (BD : bytes [96]) by (constructor; [unfold byte; lia|constructor]).
  set (p3 := set_reply_id (event_reply ev) (set_eph (EphEv ev) (set_evq t (set_cmd_id 96 (set_reply_id 0 p1))))) in *.
  destruct (dev_turn2 e c p p1 [96] p3 RNone [] pay w0 I H S TK L Qc RC BD D) as (q & w & RF & Qq & TR & IQ & LN & G).
  - left; reflexivity.
  - exact (conj eq_refl (conj eq_refl (conj eq_refl eq_refl))).
  - reflexivity.
  - change (reply_id p3) with (event_reply ev). clear - IN. destruct IN as [<-|[<-|[<-|[<-|[<-|[<-|[<-|[]]]]]]]]; reflexivity.
  - intros [X _]. discriminate.
  - change (sc_active (fl p3)) with (sc_active (fl p1)). assert (TB : tx_buf_size p3 = tx_buf_size p) by (unfold tx_buf_size; change (peer_rx p3) with (peer_rx p1); rewrite PR; reflexivity).
    rewrite TB, SA. exact F.
  - rewrite N1. clear - IN. intros X. rewrite X in IN. simpl in IN. lia.
  - intros y smb m Ry Ey Cy _ M _. apply (ev_built e y smb m ev pay (caps p)); [exact Ry|exact Ey|rewrite Cy; exact CA|exact P|exact R|exact M].
  - exists q, w. cbn [app] in RF. split; [exact RF|]. split; [exact Qq|]. split; [exact (f_equal (fun x => evq x) TR)|]. split; [exact IQ|].
    split; [exact (eq_trans (f_equal (fun x => enforce (fl x)) TR) EF)|].
    split; [|exact LN]. assert (Y : peer_rx q = peer_rx p1) by exact (f_equal (fun x => peer_rx x) TR). unfold tx_buf_size. rewrite Y, PR. reflexivity.
Qed.

Lemma send_time e c q o : phy_state c = PSend -> state_update e c = Ok (q, CInprog, o) -> phy_tstamp q = e_now e.
Proof.
  intros P U. unfold state_update, phy_running, phy_state_update in U. rewrite P in U. cbv iota in U. unfold phy_send in U.
  destruct (build_and_send e c) as [[[p1 ok] o1]|u|u]; [|discriminate U|discriminate U]. rewrite !bind_Ok in U. destruct ok.
  - rewrite bind_Ok in U. injection U as <- _. reflexivity.
  - rewrite bind_Ok in U. exfalso. revert U. unfold after_phy. cbn [phy_state set_phy_state].
    intros U. change (phy_state (set_phy_state PErr p1)) with PErr in U. cbv iota in U.
    destruct (state_check_reply e _) as [[[a b] o2]|u|u]; [|discriminate U|discriminate U]. rewrite bind_Ok in U. unfold finish_update in U.
    rewrite bind_Ok in U. destruct (next_err_state _ _) as [[x1 n1] o3].
    destruct (do_requests e x1 n1) as [[x2 n2] o4]. destruct (st_eqb _ n2); [discriminate U|]. destruct (state_change e x2 n2). discriminate U.
Qed.

(* --- a lost reply, outside a session --- *)
Lemma lost_reply e1 e2 c p : cpi c -> pd_inv p -> env_typed e1 -> env_typed e2 -> 256 <= e_tx e2 -> state c = SOnline -> phy_state c = PIdle -> rq_offline c = false -> rq_event c = false ->
  cmdq c = [] -> no_transfer c -> e_now e1 - tstamp c > 50 -> retry c < 8 -> line c p -> sc_active (fl c) = false -> quiet c -> quiet p -> 69 <= tx_buf_size c -> 69 <= tx_buf_size p ->
  enforce (fl p) = false -> tells_one p ->
  exists c1 c2 w1, state_update e1 c = Ok (c1, CYield, []) /\ state_update e2 c1 = Ok (c2, CInprog, [OTx w1]) /\
  forall e3, hears e3 w1 -> exists p1 w2, pd_refresh e3 p = Ok (p1, [OTx w2]) /\ evq p1 = [] /\
  forall e4, nothing e4 -> e_now e4 - e_now e2 > 200 -> exists c3, state_update e4 c2 = Ok (c3, CYield, []) /\ retry c3 = retry c + 1 /\
  forall e5, env_typed e5 -> 256 <= e_tx e5 -> 800 <= e_now e5 - e_now e4 -> exists c4 w3, state_update e5 c3 = Ok (c4, CInprog, [OTx w3]) /\
  forall e6, hears e6 w3 -> exists p2 w4, pd_refresh e6 p1 = Ok (p2, [OTx w4]) /\ evq p2 = [] /\
  forall e7, hears e7 w4 -> exists c5, state_update e7 c4 = Ok (c5, CYield, []) /\ (state c5 = SOnline \/ state c5 = SChlng) /\ phy_state c5 = PIdle /\ line c5 p2 /\ quiet c5 /\ quiet p2 /\ retry c5 = retry c + 1.
Proof.
  intros I Ip T1 T2 X2 St Ph Off Ev CQ NT Tm RT L Ac Qc Qp N1 N2 EN TO.
  assert (Ap : sc_active (fl p) = false) by (destruct L as [_ [(_ & Y & _)|Y]]; [exact Y|destruct (is_act c p Y); congruence]).
  destruct (ask_poll e1 e2 c p I T1 T2 X2 Ph St CQ NT Tm L Qc Qp N1) as (c1 & c2 & w1 & U1 & U2 & I2 & Q2 & P2 & R2 & A2 & G1).
  exists c1, c2, w1. split; [exact U1|]. split; [exact U2|].
  assert (TS : phy_tstamp c2 = e_now e2).
  { apply (send_time e2 c1 c2 _ ) with (2 := U2). rewrite (pan_start e1 c (set_tstamp (e_now e1) c) 96 Ph Ph) in U1; [|apply poll_pending; assumption|lia]. injection U1 as <-. reflexivity. }
  intros e3 H3. destruct (G1 e3 H3) as (p0 & TK & L2 & LC & RX & RB & A0).
  assert (SS : in_session e3 p) by (intros Y; congruence).
  assert (A2' : sc_active (fl c2) = false) by congruence.
  assert (TURN : exists p1 w2, pd_refresh e3 p = Ok (p1, [OTx w2]) /\ quiet p1 /\ evq p1 = [] /\ pd_inv p1 /\ enforce (fl p1) = enforce (fl p) /\ tx_buf_size p1 = tx_buf_size p /\ (sc_active (fl c2) = false -> line c2 p1)).
  { destruct TO as [TO|(ev & pay & TO & PP & RR & FF)].
    - destruct (tell_none e3 c2 p p0 w1 Ip H3 SS TK L2 Q2 RB LC A0 (or_introl EN) TO N2) as (p1 & w2 & y1 & y2 & y3 & y4 & y5 & y6 & y7 & _).
      exists p1, w2. exact (conj y1 (conj y2 (conj y3 (conj y4 (conj y5 (conj y6 y7)))))).
    - apply (tell_some e3 c2 p p0 ev [] pay w1 Ip H3 SS TK L2 Q2 RB LC A0 (or_introl EN) TO PP RR). rewrite Ap. exact FF. }
  destruct TURN as (p1 & w2 & RF & Qp1 & EV1 & Ip1 & EN1 & TB1 & LN). specialize (LN A2').
  exists p1, w2. split; [exact RF|]. split; [exact EV1|].
  assert (M2 : pd_mode (fl c2) = false) by (apply (cv_mode c2), I2).
  assert (RT2 : retry c2 = retry c) by exact (f_equal (fun x => retry x) R2).
  intros e4 [T4 H4] N4. pose proof (pan_late e4 c2 P2 Q2 M2 H4 ltac:(lia) ltac:(lia)) as U3.
  set (c3 := again (e_now e4) c2) in *. exists c3. split; [exact U3|]. split; [change (retry c2 + 1 = retry c + 1); lia|].
  assert (I3 : cpi c3) by (apply (cp_do_inv (Update e4) c2 _ [] T4 I2); unfold cp_do; rewrite U3; reflexivity).
  assert (L3 : line c3 p1) by (apply (line_c c2 p1); [apply again_link|exact LN]).
  assert (Q3 : quiet c3) by exact Q2.
  intros e5 T5 X5 N5.
  assert (C3 : cmd_id c3 = 96) by exact (f_equal (fun x => cmd_id x) R2).
  assert (A3 : sc_active (fl c3) = false) by exact A2'.
  assert (TB3 : tx_buf_size c3 = tx_buf_size c).
  { assert (Y : peer_rx c2 = peer_rx c) by exact (f_equal (fun x => peer_rx x) R2). unfold tx_buf_size. change (peer_rx c3) with (peer_rx c2). rewrite Y. reflexivity. }
  destruct (pan_resends e5 c3 p1 [96] I3 T5 eq_refl ltac:(exact N5) ltac:(rewrite C3; reflexivity) X5 L3 Q3 Qp1) as (c4 & w3 & U4 & I4 & Q4 & P4 & R4 & A4 & G4).
  { rewrite TB3. apply fits_small; [constructor; [unfold byte; lia|constructor]|change (zlen [96]) with 1; lia|pose proof (tx_size c); lia|intros _; change (zlen [96]) with 1; lia]. }
  { intros x smb m Cx _ _ _ _ M. rewrite C3 in Cx. unfold build_cmd_switch. rewrite Cx. unfold assert_len. simpl. replace (1 <? m) with true by lia; reflexivity. }
  exists c4, w3. split; [exact U4|].
  assert (A4' : sc_active (fl c4) = false) by congruence.
  intros e6 H6. destruct (G4 e6 H6) as (p0' & TK' & L4 & LC' & RX' & RB' & A0').
  assert (Ap1 : sc_active (fl p1) = false) by (destruct LN as [_ [(_ & Y & _)|Y]]; [exact Y|destruct (is_act _ _ Y); congruence]).
  assert (SS' : in_session e6 p1) by (intros Y; congruence).
  destruct (tell_none e6 c4 p1 p0' w3 Ip1 H6 SS' TK' L4 Q4 RB' LC' A0' ltac:(left; congruence) EV1 ltac:(lia)) as (p2 & w4 & RF2 & Qp2 & EV2 & Ip2 & _ & _ & _ & G5).
  exists p2, w4. split; [exact RF2|]. split; [exact EV2|].
  intros e7 H7. destruct (G5 e7 H7) as (c0 & TC & LK & RX0 & RB0 & LN' & AC).
  pose proof (pan_done e7 c4 [64] c0 (set_reply_id 64 c0) P4 TC eq_refl) as PD.
  assert (a1 : state c4 = state c3) by exact (f_equal (fun x => state x) R4). assert (a2 : state c2 = state c) by exact (f_equal (fun x => state x) R2). assert (a3 : state c0 = state c4) by exact (f_equal (fun x => state x) LK).
  assert (b1 : cmd_id c4 = cmd_id c3) by exact (f_equal (fun x => cmd_id x) R4). assert (b3 : cmd_id c0 = cmd_id c4) by exact (f_equal (fun x => cmd_id x) LK).
  assert (d1 : rq_offline c4 = rq_offline c3) by exact (f_equal (fun x => rq_offline x) R4). assert (d2 : rq_offline c2 = rq_offline c) by exact (f_equal (fun x => rq_offline x) R2). assert (d3 : rq_offline c0 = rq_offline c4) by exact (f_equal (fun x => rq_offline x) LK).
  assert (v1 : rq_event c4 = rq_event c3) by exact (f_equal (fun x => rq_event x) R4). assert (v2 : rq_event c2 = rq_event c) by exact (f_equal (fun x => rq_event x) R2). assert (v3 : rq_event c0 = rq_event c4) by exact (f_equal (fun x => rq_event x) LK).
  assert (r3 : rq_restart c0 = rq_restart c4) by exact (f_equal (fun x => rq_restart x) LK).
  change (state c3) with (state c2) in a1. change (rq_offline c3) with (rq_offline c2) in d1. change (rq_event c3) with (rq_event c2) in v1.
  assert (S4 : state c4 = SOnline) by congruence.
  rewrite S4 in PD. set (z := set_reply_id 64 c0) in *.
  destruct (ack_end e7 z) as (c5 & AE & K5 & S5 & RC5).
  - change (state c0 = SOnline). congruence.
  - reflexivity.
  - change (cmd_id c0 = 96). congruence.
  - change (rq_restart c0 = false). rewrite r3. apply (ci_rq c4 I4).
  - change (rq_offline c0 = false). congruence.
  - change (rq_event c0 = false). congruence.
  - rewrite AE in PD. exists c5. split; [exact PD|]. split; [rewrite S5; destruct (sc_should_retry _ _); auto|]. split; [apply (kp_phy z c5 K5)|].
    split; [|split; [|split; [exact Qp2|]]].
    + apply (kept_line z c5 p2 K5). apply (line_like (state_reset false c0) z p2); try reflexivity. exact LN'.
    + apply (kept_quiet z c5 K5); [exact RX0|exact RB0].
    + assert (t1 : retry c4 = retry c3) by exact (f_equal (fun x => retry x) R4). assert (t2 : retry c0 = retry c4) by exact (f_equal (fun x => retry x) LK).
      change (retry c3) with (retry c2 + 1) in t1. rewrite RC5. change (retry z) with (retry c0). lia.
Qed.

(* no retry left *)
Lemma dropped e y : phy_state y = PErr -> state y = SOnline -> cmd_id y = 96 -> rq_restart y = false -> exists q o, after_phy e SOnline y [] = Ok (q, CYield, o) /\ state q = SOffline.
Proof.
  intros P S C R. unfold after_phy. rewrite P. unfold state_check_reply. rewrite S.
  assert (X : exists st, check_online_response e y = Ok (y, st, [])).
  { unfold check_online_response. rewrite C. change (96 =? CMD_KEYSET) with false. cbv zeta iota. destruct (_ =? REPLY_ACK); [eexists; reflexivity|]. destruct (_ || _); [eexists; reflexivity|].
    change (96 =? CMD_POLL) with true. cbv iota. eexists; reflexivity. }
  destruct X as (st & ->). rewrite bind_Ok.
  assert (S2 : state (state_reset false y) = SOnline) by exact S. assert (R2 : rq_restart (state_reset false y) = false) by exact R.
  generalize (@nil out ++ [] ++ notify_command_status e y st). intros o.
  generalize dependent (state_reset false y). intros z S2 R2. unfold finish_update. unfold next_err_state. rewrite S2, bind_Ok. unfold do_requests. rewrite S2, R2. cbn [st_eqb orb].
  destruct (rq_offline z); destruct (rq_event _); cbn [st_eqb state_change]; eexists; eexists; split; reflexivity.
Qed.

Lemma no_retry_left e1 e2 c p : cpi c -> env_typed e1 -> env_typed e2 -> 256 <= e_tx e2 -> state c = SOnline -> phy_state c = PIdle -> cmdq c = [] -> no_transfer c -> e_now e1 - tstamp c > 50 ->
  8 <= retry c -> line c p -> quiet c -> quiet p -> 69 <= tx_buf_size c ->
  exists c1 c2 w1, state_update e1 c = Ok (c1, CYield, []) /\ state_update e2 c1 = Ok (c2, CInprog, [OTx w1]) /\
  forall e3, nothing e3 -> e_now e3 - e_now e2 > 200 -> exists c3 o, state_update e3 c2 = Ok (c3, CYield, o) /\ state c3 = SOffline.
Proof.
  intros I T1 T2 X2 St Ph CQ NT Tm RT L Qc Qp N1.
  destruct (ask_poll e1 e2 c p I T1 T2 X2 Ph St CQ NT Tm L Qc Qp N1) as (c1 & c2 & w1 & U1 & U2 & I2 & Q2 & P2 & R2 & A2 & G1).
  exists c1, c2, w1. split; [exact U1|]. split; [exact U2|].
  assert (TS : phy_tstamp c2 = e_now e2).
  { apply (send_time e2 c1 c2 _ ) with (2 := U2). rewrite (pan_start e1 c (set_tstamp (e_now e1) c) 96 Ph Ph) in U1; [|apply poll_pending; assumption|lia]. injection U1 as <-. reflexivity. }
  assert (M2 : pd_mode (fl c2) = false) by (apply (cv_mode c2), I2).
  assert (RT2 : retry c2 = retry c) by exact (f_equal (fun x => retry x) R2).
  assert (S2 : state c2 = state c) by exact (f_equal (fun x => state x) R2).
  intros e3 [T3 H3] N3. rewrite (pan_gives_up e3 c2 P2 Q2 M2 H3 ltac:(lia) ltac:(lia)), S2, St.
  apply dropped; [reflexivity|exact (eq_trans S2 St)|exact (f_equal (fun x => cmd_id x) R2)|exact (ci_rq c2 I2)].
Qed.
