(** A packet that never arrives, and the retransmission. *)
From Verif Require Import Base ListLemmas Crc SpecCrc CrcProofs CrcBurst Aes AesProofs Rb RbProofs
  Types Sc ScProofs Phy PhyCheck File Pd Cp PdRun SpecRx SpecFrame SpecSec SpecSession SpecCmd SpecApp SpecPd SpecLink RxProofs RxFwd PdRx PdCore PhyTx PdTx PdReply
  PdStep PdWire PdFwd PdSec PdHist2 MacProofs WireSec CpCtx SpecCp SpecCpRun CpTx CpRx CpStep CpInv CpEdge CpFacts CpSum CpFwd Chunk Trip ChunkRun LinkProofs LinkStep CpSend SpecHand SpecTalk Hand Line Talk Talk2 PdPlain PdRefuse ExPd.
From Coq Require Import ZifyBool ZifyNat.
Ltac Zify.zify_post_hook ::= Z.div_mod_to_equations.
Local Opaque aes_ecb_encrypt aes_cbc_encrypt aes_cbc_decrypt mac_of RB_SIZE osdp_mac enc1 osdp_encrypt encrypt_data.

Lemma rb_same p : set_rb (rb p) p = p.
Proof. destruct p; reflexivity. Qed.

(* nothing arrives *)
Lemma check_silent e p : quiet p -> pd_mode (fl p) = false -> heard (e_rx e) = [] -> check_packet e p = Ok (p, KNoData).
Proof.
  intros (Q1 & Q2 & Q3 & Q4 & _ & _) M H.
  assert (CR : channel_receive (e_rx e) (rb p) 0 = (rb p, 0)).
  { destruct (e_rx e) as [|c cs]; [reflexivity|]. cbn [heard] in H. cbn [channel_receive].
    assert (Z0 : zlen (firstn 64 c) = 0).
    { destruct (Nat.eqb (length (firstn 64 c)) 64) eqn:E.
      - apply app_eq_nil in H. destruct H as [H _]. rewrite H in E. discriminate.
      - rewrite H. reflexivity. }
    rewrite Z0. reflexivity. }
  unfold check_packet. rewrite CR, rb_same. cbv zeta. rewrite M. cbn [andb]. rewrite Q2. change (0 =? 0) with true. cbv iota.
  unfold check_header. rewrite Q1. change (0 =? 0) with true. cbv iota.
  cbn [scan]. pose proof (rb_pop_spec (rb p) Q4) as S. rewrite Q3 in S. rewrite S, rb_same, !bind_Ok. reflexivity.
Qed.

(* the panel after a time-out *)
Definition again (t : Z) (c : pd) : pd := set_phy_tstamp t (set_retry (retry c + 1) (set_phy_state PWait (set_wait_ms 800 c))).
Lemma pan_late e c : phy_state c = PReplyWait -> quiet c -> pd_mode (fl c) = false -> heard (e_rx e) = [] -> e_now e - phy_tstamp c > 200 -> retry c < 8 ->
  state_update e c = Ok (again (e_now e) c, CYield, []).
Proof.
  intros P Q M H T R. rewrite update_reply by exact P. unfold phy_reply_wait, process_reply. rewrite (check_silent e c Q M H), !bind_Ok.
  change RESP_TOUT with 200. change CMD_MAX_RETRIES with 8. replace (e_now e - phy_tstamp c >? 200) with true by lia. replace (retry c <? 8) with true by lia. reflexivity.
Qed.
(* no retry left *)
Lemma pan_gives_up e c : phy_state c = PReplyWait -> quiet c -> pd_mode (fl c) = false -> heard (e_rx e) = [] -> e_now e - phy_tstamp c > 200 -> 8 <= retry c ->
  state_update e c = after_phy e (state c) (set_phy_state PErr c) [].
Proof.
  intros P Q M H T R. rewrite update_reply by exact P. unfold phy_reply_wait, process_reply. rewrite (check_silent e c Q M H), !bind_Ok.
  change RESP_TOUT with 200. change CMD_MAX_RETRIES with 8. replace (e_now e - phy_tstamp c >? 200) with true by lia. replace (retry c <? 8) with false by lia. reflexivity.
Qed.

Lemma again_link t c : same_link c (again t c).
Proof. repeat split; reflexivity. Qed.
Lemma again_quiet t c : quiet c -> quiet (again t c).
Proof. intros Q. exact Q. Qed.

(* the wait is over *)
Lemma pan_resumes e c : phy_state c = PWait -> wait_ms c <= e_now e - phy_tstamp c -> state_update e c = state_update e (set_phy_state PSend c).
Proof.
  intros P W. unfold state_update at 1. unfold phy_running, phy_state_update. rewrite P. replace (e_now e - phy_tstamp c <? wait_ms c) with false by lia.
  unfold state_update. unfold phy_running, phy_state_update. reflexivity.
Qed.
Lemma cpi_resumes c : cpi c -> phy_state c = PWait -> cpi (set_phy_state PSend c).
Proof.
  intros [A B C D E F G H] P. constructor; try assumption.
  - exact (cbinv_phy PSend c A).
  - right; reflexivity.
  - intros X; discriminate X.
  - intros _. apply E. unfold phy_running. rewrite P. reflexivity.
Qed.

(* the retransmission, as pan_sends *)
Lemma pan_resends e c p d : cpi c -> env_typed e -> phy_state c = PWait -> wait_ms c <= e_now e - phy_tstamp c -> in_sc_handshake false (cmd_id c) = false -> 256 <= e_tx e ->
  line c p -> quiet c -> quiet p -> fits (tx_buf_size c) (sc_active (fl c)) d ->
  (forall x smb m, cmd_id x = cmd_id c -> eph x = eph c -> sc x = sc c -> sc_active (fl x) = sc_active (fl c) -> zlen d + 2 <= m -> 60 <= m -> build_cmd_switch e x smb m = Ok (x, Some d, None, [])) ->
  exists c1 w, state_update e c = Ok (c1, CInprog, [OTx w]) /\ cpi c1 /\ quiet c1 /\ phy_state c1 = PReplyWait /\ reqcore c1 = reqcore c /\ sc_active (fl c1) = sc_active (fl c) /\
  forall h, hears h w -> exists p1, takes p [] h d p1 /\ line_reply c1 p1 /\ linkcore p1 = linkcore p /\ rx_base p1 /\ rb_contents (rb p1) = [] /\ sc_active (fl p1) = sc_active (fl p).
Proof.
  intros I T P W HS TX L Qc Qp F BS. pose proof (cpi_resumes c I P) as I1.
  assert (L1 : line (set_phy_state PSend c) p) by (apply (line_c c p); [repeat split; reflexivity|exact L]).
  destruct (pan_sends e (set_phy_state PSend c) p None d [] I1 T eq_refl HS TX L1 Qc Qp F) as (c2 & w & U2 & Q2 & P2 & R2 & A2 & H2).
  { cbn [with_file]. apply BS; try reflexivity; apply (room_cmd (set_phy_state PSend c) d HS); exact F. }
  cbn [app with_file] in *. exists c2, w. split; [rewrite pan_resumes by assumption; exact U2|].
  split. { apply (cp_do_inv (Update e) _ c2 [OTx w] T I1). unfold cp_do; rewrite U2; reflexivity. }
  split; [exact Q2|]. split; [exact P2|]. split; [exact R2|]. split; [exact A2|exact H2].
Qed.

(* --- outside a session: the frame itself --- *)
Lemma plain_parts a s d : byte a -> 0 <= s <= 3 -> bytes d -> 1 <= zlen d <= 248 ->
  let f := plain_frame a s d in f_shape (128 <=? a) f /\ zlen f <= 255 /\ f_intact f /\ f_addr f = a mod 128 /\ f_seq f = s /\ nth 5 f 0 = nth 0 d 0 /\ zlen f = zlen d + 7 /\ trailer_len f = 2.
Proof.
  intros A S B L. cbv zeta. destruct (crc_frame a (4 + s) d A ltac:(unfold byte; lia) B ltac:(lia) ltac:(lia)) as (x1 & x2 & x3 & x4 & _ & x6 & x7 & _).
  fold (plain_frame a s d) in *. assert (C : f_crc (plain_frame a s d) = true) by (unfold f_crc; rewrite x4; apply Z.eqb_eq; lia).
  split; [exact x1|]. split; [lia|]. split; [unfold f_intact; rewrite C; exact x2|]. split; [unfold f_addr; rewrite x3; reflexivity|].
  split; [unfold f_seq; rewrite x4; lia|]. split; [apply (x7 0%nat); unfold zlen in *; lia|]. split; [exact x6|unfold trailer_len; rewrite C; reflexivity].
Qed.

Lemma plain_sends e c d : cpi c -> env_typed e -> phy_state c = PSend -> in_sc_handshake false (cmd_id c) = false -> 256 <= e_tx e -> quiet c -> sc_active (fl c) = false ->
  0 <= address c < 127 -> fits (tx_buf_size c) false d -> build_cmd_switch e (cp_init c) (cmd_smb c) (cmd_room c) = Ok (cp_init c, Some d, None, []) ->
  exists c1 mk, state_update e c = Ok (c1, CInprog, [OTx (mk ++ plain_frame (address c) (seq_next (seqn c)) d)]) /\ (mk = [] \/ mk = [255]) /\ cpi c1 /\ quiet c1 /\ phy_state c1 = PReplyWait /\
    reqcore c1 = reqcore c /\ sc_active (fl c1) = false /\ seqn c1 = seq_next (seqn c) /\ address c1 = address c /\ phy_tstamp c1 = e_now e.
Proof.
  intros I T PS HS TX Q A AD F BS. pose proof (ci_b c I) as B. pose proof (tx_buf_le c) as NL.
  pose proof (cmd_transmit e c c d [] (cv_mode c B) (cv_seq c B) (cv_ty c B) (env_fread e T) ltac:(apply F) HS (cv_mode c B) eq_refl eq_refl eq_refl BS) as BT.
  destruct F as (F1 & F2 & F3 & F4). pose proof (cv_mode c B) as M.
  destruct (transmit_plain e c (tx_buf_size c) (cmd_ty d) d (cv_seq c B) A ltac:(unfold tx_handshake; rewrite M; exact HS) F1 F2 F3 F4 ltac:(lia)) as (b & TR & BO).
  assert (BB : buf_ok b) by (apply BO; split; apply Q).
  assert (TO : tx_on c = set_seqn (seq_next (seqn c)) (set_has_mark true c)) by (unfold tx_on; rewrite M; reflexivity).
  assert (TA : tx_addr c = address c) by (unfold tx_addr; rewrite M; lia).
  assert (TN : tx_num c = seq_next (seqn c)) by (unfold tx_num; rewrite M; reflexivity).
  rewrite TA, TN in TR. pose proof (mk_cases (tx_on c)) as MC. rewrite TR, TO in BT. rewrite TO in MC. cbn [with_outs bind app] in BT.
  set (c0 := set_pbuf b (set_seqn (seq_next (seqn c)) (set_has_mark true c))) in *.
  set (mk := mk_of (set_seqn (seq_next (seqn c)) (set_has_mark true c))) in *. clearbody mk.
  assert (U : state_update e c = Ok (set_phy_tstamp (e_now e) (set_phy_state PReplyWait (set_reply_id REPLY_INVALID (state_reset false c0))), CInprog, [OTx (mk ++ plain_frame (address c) (seq_next (seqn c)) d)])).
  { unfold state_update, phy_running, phy_state_update. rewrite PS. cbv iota. unfold phy_send. rewrite BT, !bind_Ok. reflexivity. }
  exists (set_phy_tstamp (e_now e) (set_phy_state PReplyWait (set_reply_id REPLY_INVALID (state_reset false c0)))), mk. split; [exact U|]. split; [exact MC|].
  split. { eapply (cp_do_inv (Update e) c _ _ T I). unfold cp_do. rewrite U. reflexivity. }
  assert (Q0 : quiet c0) by (destruct Q as (Q1 & Q2 & Q3 & Q4 & Q5 & Q6); exact (conj Q1 (conj Q2 (conj Q3 (conj Q4 BB))))).
  split; [apply wait_quiet; exact Q0|]. split; [reflexivity|]. split; [rewrite wait_req; reflexivity|]. split; [exact A|]. repeat split; reflexivity.
Qed.

(* what arrives is the packet *)
Lemma quiet_arrived e p f : quiet p -> chunk_ok e -> delivers (heard (e_rx e)) f [] ->
  exists noise mk, arrived e p = noise ++ mk ++ f ++ [] /\ ~ In 83 noise /\ (mk = [] \/ mk = [255]).
Proof.
  intros (Q1 & _ & Q3 & _) [_ CK] D. rewrite (arrived_all e p CK Q3). unfold pending. rewrite Q1, Q3. exact D.
Qed.

(* a reply with a wrong number takes the panel offline *)
Lemma wrong_number e c f : cpi c -> env_typed e -> chunk_ok e -> phy_state c = PReplyWait -> quiet c -> state c = SOnline -> f_shape true f -> zlen f <= 255 -> f_intact f -> f_mine (address c) f ->
  ~ f_busy f -> f_seq f <> seqn c mod 4 -> delivers (heard (e_rx e)) f [] -> exists q o, state_update e c = Ok (q, CYield, o) /\ state q = SOffline.
Proof.
  intros I T CK P Q St SH LF FI FM FB FS D. destruct (quiet_arrived e c f Q CK D) as (nz & mk & AR & N1 & N2).
  destruct (reply_frame e c f [] I T P) as (p1 & _ & _ & _ & _ & _ & _ & _ & RX & _ & _ & X & _).
  { split; [exact SH|]. split; [exact LF|]. exists nz, mk. auto. }
  specialize (X FI FM FB FS). rewrite update_reply by exact P. unfold phy_reply_wait. rewrite X, !bind_Ok, St.
  set (y := set_phy_state PErr (nak 4 p1)).
  assert (S1 : state y = SOnline) by exact (eq_trans (f_equal (fun x => state x) RX) St).
  assert (R1 : rq_restart y = false) by exact (eq_trans (f_equal (fun x => rq_restart x) RX) (ci_rq c I)).
  assert (P1 : phy_state y = PErr) by reflexivity. assert (RP : reply_id y = 69 - 4) by reflexivity. clearbody y.
  unfold after_phy. rewrite P1. unfold state_check_reply. rewrite S1. unfold check_online_response. rewrite RP. cbn [Z.sub Z.add Z.opp Z.pos_sub Pos.pred_double Pos.sub_mask].
  change (69 - 4 =? REPLY_ACK) with false. change ((69 - 4 =? REPLY_NAK) || (69 - 4 =? REPLY_INVALID)) with true. cbv iota. rewrite !bind_Ok.
  generalize (@nil out ++ [] ++ notify_command_status e y false). intros o.
  assert (S2 : state (state_reset false y) = SOnline) by exact S1. assert (R2 : rq_restart (state_reset false y) = false) by exact R1.
  generalize dependent (state_reset false y). intros z S2 R2. unfold finish_update. unfold next_err_state. rewrite S2, bind_Ok. unfold do_requests. rewrite S2, R2. cbn [st_eqb orb].
  destruct (rq_offline z); destruct (rq_event _); cbn [st_eqb state_change]; eexists; eexists; split; reflexivity.
Qed.

Lemma resend_refused s : -1 <= s <= 3 -> ~ seq_ok s (seq_next (seq_next s)) /\ seq_next s <> seq_next (seq_next s) mod 4 /\ 0 <= seq_next s <= 3 /\ 0 <= seq_next (seq_next s) <= 3.
Proof.
  intros H. assert (C : s = -1 \/ s = 0 \/ s = 1 \/ s = 2 \/ s = 3) by lia.
  destruct C as [-> | [-> | [-> | [-> | ->]]]]; (split; [intros [X|[X|X]]; discriminate|]); (split; [discriminate|vm_compute; repeat split; discriminate]).
Qed.

Lemma hears_marked h m f : m = [] \/ m = [255] -> hears h (m ++ f) -> hears h f.
Proof. intros M (A & B & C & D & E). split; [exact A|]. split; [exact B|]. split; [exact C|]. split; [exact D|]. exact (delivers_marked _ m f [] M E). Qed.

(* the state in which the panel resends, and the answer it gets *)
Lemma resent_refused e4 c3 p d : cpi c3 -> pd_inv p -> env_typed e4 -> 256 <= e_tx e4 -> phy_state c3 = PWait -> wait_ms c3 <= e_now e4 - phy_tstamp c3 -> in_sc_handshake false (cmd_id c3) = false ->
  quiet c3 -> quiet p -> state c3 = SOnline -> sc_active (fl c3) = false -> sc_active (fl p) = false -> broadcast (fl p) = false -> address p = address c3 -> 0 <= address c3 < 127 -> 69 <= tx_buf_size p ->
  -1 <= seqn p <= 3 -> seqn c3 = seq_next (seqn p) -> fits (tx_buf_size c3) false d ->
  (forall x smb m, cmd_id x = cmd_id c3 -> eph x = eph c3 -> sc x = sc c3 -> sc_active (fl x) = sc_active (fl c3) -> zlen d + 2 <= m -> 60 <= m -> build_cmd_switch e4 x smb m = Ok (x, Some d, None, [])) ->
  exists c4 w2, state_update e4 c3 = Ok (c4, CInprog, [OTx w2]) /\
  forall e5, hears e5 w2 -> exists p1 w3, pd_refresh e5 p = Ok (p1, [OTx w3]) /\ app_view p1 = app_view p /\
  forall e6, hears e6 w3 -> exists c5 o, state_update e6 c4 = Ok (c5, CYield, o) /\ state c5 = SOffline.
Proof.
  intros I Ip T X PW W HS Qc Qp St Ac Ap Bp AD AR N Sp Sc F BS.
  destruct (resend_refused (seqn p) Sp) as (NO & NE & S1 & S2).
  pose proof (cpi_resumes c3 I PW) as I1.
  destruct (plain_sends e4 (set_phy_state PSend c3) d I1 T eq_refl HS X Qc Ac AR F) as (c4 & mk & U & MK & I4 & Q4 & P4 & R4 & A4 & SN & AD4 & _).
  { apply BS; try reflexivity; apply (room_cmd (set_phy_state PSend c3) d HS); change (sc_active (fl (set_phy_state PSend c3))) with (sc_active (fl c3)); rewrite Ac; exact F. }
  rewrite <- pan_resumes in U by assumption. change (address (set_phy_state PSend c3)) with (address c3) in *. change (seqn (set_phy_state PSend c3)) with (seqn c3) in *.
  exists c4, (mk ++ plain_frame (address c3) (seq_next (seqn c3)) d). split; [exact U|].
  intros e5 H5. pose proof (hears_env _ _ H5) as K5. pose proof (hears_marked _ _ _ MK H5) as H5'.
  set (f := plain_frame (address c3) (seq_next (seqn c3)) d) in *.
  assert (LD : 1 <= zlen d <= 248) by (destruct F as (f1 & f2 & f3 & f4); lia).
  destruct (plain_parts (address c3) (seq_next (seqn c3)) d ltac:(unfold byte; lia) ltac:(rewrite Sc; exact S2) ltac:(apply F) LD) as (g1 & g2 & g3 & g4 & g5 & _). fold f in g1, g2, g3, g4, g5.
  destruct (refused_sequence e5 p f [] K5 Ip) as (V & AN).
  { split; [|split; [exact g2|]]. - replace false with (128 <=? address c3); [exact g1|]. apply Z.leb_gt; lia. - apply (quiet_arrived e5 p f Qp); apply H5'. }
  { exact g3. } { left. rewrite g4. lia. } { rewrite g5, Sc. exact NO. }
  assert (SO : session_open e5 p = false) by (unfold session_open; rewrite Ap; reflexivity).
  destruct (AN SO N ltac:(apply H5)) as (p1 & o & RF & mk2 & MK2 & ->). clear AN.
  assert (AA : answer_addr p f = address c3 + 128).
  { unfold answer_addr. rewrite Bp, g4, AD. replace (address c3 mod 128 =? 127) with false by lia. cbn [orb]. lia. }
  rewrite AA in RF. exists p1, (mk2 ++ plain_frame (address c3 + 128) (seq_next (seqn p)) [65; 4]). split; [exact RF|].
  split; [apply (V _ _ RF)|].
  intros e6 H6. apply (hears_marked _ _ _ MK2) in H6.
  destruct (plain_parts (address c3 + 128) (seq_next (seqn p)) [65; 4] ltac:(unfold byte; lia) S1 ltac:(apply bytesb_ok; reflexivity) ltac:(change (zlen [65; 4]) with 2; lia)) as (k1 & k2 & k3 & k4 & k5 & k6 & k7 & k8).
  set (g := plain_frame (address c3 + 128) (seq_next (seqn p)) [65; 4]) in *.
  apply (wrong_number e6 c4 g I4); try assumption.
  - apply H6.
  - apply H6.
  - exact (eq_trans (f_equal (fun x => state x) R4) St).
  - replace true with (128 <=? address c3 + 128); [exact k1|]. apply Z.leb_le; lia.
  - left. rewrite k4, AD4. lia.
  - intros (_ & _ & B). rewrite k6 in B. discriminate.
  - rewrite k5, SN, Sc. exact NE.
  - apply H6.
Qed.
