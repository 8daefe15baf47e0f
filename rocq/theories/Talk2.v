(** Panel and device: a whole command and its reply. *)
From Verif Require Import Base ListLemmas Crc SpecCrc CrcProofs CrcBurst Aes AesProofs Rb RbProofs
  Types Sc ScProofs Phy PhyCheck File Pd Cp PdRun SpecRx SpecFrame SpecSec SpecSession SpecCmd SpecApp SpecPd SpecLink RxProofs RxFwd PdRx PdCore PhyTx PdTx PdReply
  PdStep PdWire PdFwd PdSec PdHist2 MacProofs WireSec CpCtx SpecCp SpecCpRun CpTx CpRx CpStep CpInv CpEdge CpFacts CpSum CpFwd Chunk Trip ChunkRun LinkProofs LinkStep CpSend SpecHand SpecTalk Hand Line Talk.
From Coq Require Import ZifyBool ZifyNat.
Ltac Zify.zify_post_hook ::= Z.div_mod_to_equations.
Local Opaque aes_ecb_encrypt aes_cbc_encrypt aes_cbc_decrypt mac_of RB_SIZE osdp_mac enc1 osdp_encrypt encrypt_data.

Lemma keeps_same p q : keeps_link p q -> same_link p q.
Proof. intros (a & b & c & d & _). exact (conj a (conj b (conj c d))). Qed.
Lemma keeps_quiet p q : keeps_link p q -> quiet p -> quiet q.
Proof. intros (_ & _ & _ & _ & a & b & c & d) (q1 & q2 & q3). unfold quiet. rewrite a, b, c, d. exact (conj q1 (conj q2 q3)). Qed.
Lemma keeps_send code p q : keeps_link p q -> keeps_link p (set_phy_state PSend (set_cmd_id code q)).
Proof. intros H. exact H. Qed.

Lemma fits_len n act d : fits n act d -> zlen d + (if act then 10 else 8) <= n /\ 69 <= n.
Proof.
  intros (_ & L & N & F). split; [|apply N]. destruct act; [|exact F]. destruct (zlen d >? 1) eqn:E; [|lia]. pose proof (Z.div_mod (zlen d + 15) 16 ltac:(lia)). pose proof (Z.mod_pos_bound (zlen d + 15) 16 ltac:(lia)). lia.
Qed.
Lemma room_cmd p d : in_sc_handshake false (cmd_id p) = false -> fits (tx_buf_size p) (sc_active (fl p)) d -> zlen d + 2 <= cmd_room p /\ 60 <= cmd_room p.
Proof.
  intros H F. destruct (fits_len _ _ _ F) as [L N]. unfold cmd_room. rewrite zlen_cons. unfold cp_hdr, zlen in *. rewrite H. destruct (sc_active (fl p)); cbn [length app]; lia.
Qed.
Lemma room_reply p d : in_sc_handshake true (reply_id p) = false -> fits (tx_buf_size p) (sc_active (fl p)) d -> zlen d + 2 <= reply_room p /\ 60 <= reply_room p.
Proof.
  intros H F. destruct (fits_len _ _ _ F) as [L N]. unfold reply_room. rewrite zlen_app. pose proof (mk_of_len p). unfold pd_hdr, zlen in *. rewrite H. destruct (sc_active (fl p)); cbn [length app]; lia.
Qed.

Lemma pan_start e c c0 code : phy_state c = PIdle -> phy_state c0 = PIdle -> state_get_cmd e c = Ok (c0, code, []) -> 0 < code ->
  state_update e c = Ok (set_phy_state PSend (set_cmd_id code c0), CYield, []).
Proof.
  intros P P0 G C. unfold state_update, phy_running. rewrite P. unfold after_phy. rewrite P, G, bind_Ok. replace (code >? 0) with true by lia. reflexivity.
Qed.

Lemma pan_ask e1 e2 c c0 code p d : cpi c -> env_typed e1 -> env_typed e2 -> 256 <= e_tx e2 -> phy_state c = PIdle -> phy_state c0 = PIdle -> state_get_cmd e1 c = Ok (c0, code, []) ->
  0 < code -> in_sc_handshake false code = false -> keeps_link c c0 -> peer_rx c0 = peer_rx c -> line c p -> quiet c -> quiet p -> fits (tx_buf_size c) (sc_active (fl c)) d ->
  (forall x smb m, cmd_id x = code -> eph x = eph c0 -> sc x = sc c0 -> sc_active (fl x) = sc_active (fl c) -> zlen d + 2 <= m -> 60 <= m -> build_cmd_switch e2 x smb m = Ok (x, Some d, None, [])) ->
  exists c1 c2 w, state_update e1 c = Ok (c1, CYield, []) /\ state_update e2 c1 = Ok (c2, CInprog, [OTx w]) /\ cpi c2 /\ quiet c2 /\ phy_state c2 = PReplyWait /\
    reqcore c2 = reqcore (set_cmd_id code c0) /\ sc_active (fl c2) = sc_active (fl c) /\
  forall h, hears h w -> exists p1, takes p [] h d p1 /\ line_reply c2 p1 /\ linkcore p1 = linkcore p /\ rx_base p1 /\ rb_contents (rb p1) = [] /\ sc_active (fl p1) = sc_active (fl p).
Proof.
  intros I T1 T2 TX P P0 G C0 HS K PX L Qc Qp F BS. pose proof (pan_start e1 c c0 code P P0 G C0) as U1.
  set (c1 := set_phy_state PSend (set_cmd_id code c0)) in *. pose proof (keeps_send code c c0 K) as K1. fold c1 in K1.
  assert (D1 : cp_do (Update e1) c = Ok (c1, [])) by (unfold cp_do; rewrite U1; reflexivity).
  assert (I1 : cpi c1) by exact (cp_do_inv (Update e1) c c1 [] T1 I D1).
  assert (TB : tx_buf_size c1 = tx_buf_size c) by (unfold tx_buf_size; change (peer_rx c1) with (peer_rx c0); rewrite PX; reflexivity).
  assert (FL : sc_active (fl c1) = sc_active (fl c)) by (rewrite (proj1 K1); reflexivity).
  destruct (pan_sends e2 c1 p None d [] I1 T2 eq_refl HS TX (line_c _ _ _ (keeps_same _ _ K1) L) (keeps_quiet _ _ K1 Qc) Qp ltac:(rewrite TB, FL; exact F)) as (c2 & w & U2 & Q2 & P2 & R2 & A2 & H2).
  { cbn [with_file]. apply BS; [reflexivity|reflexivity|reflexivity|exact FL| |]; apply (room_cmd c1 d HS); rewrite TB, FL; exact F. }
  cbn [app] in U2.
  exists c1, c2, w. split; [exact U1|]. split; [exact U2|].
  split. { apply (cp_do_inv (Update e2) c1 c2 [OTx w] T2 I1). unfold cp_do; rewrite U2; reflexivity. }
  split; [exact Q2|]. split; [exact P2|]. split; [exact R2|]. split; [congruence|exact H2].
Qed.

(* the device's turn *)
Lemma same_bumped e p : same_link p (bumped e p) /\ rb (bumped e p) = rb p /\ reply_id (bumped e p) = reply_id p /\ cmd_id (bumped e p) = cmd_id p /\ eph (bumped e p) = eph p /\
  caps (bumped e p) = caps p /\ pid (bumped e p) = pid p /\ peer_rx (bumped e p) = peer_rx p /\ set_sc_tstamp 0 (bumped e p) = set_sc_tstamp 0 p.
Proof. unfold bumped. destruct (sc_active (fl p)); split; [split; [|split; [|split]]; reflexivity|repeat (split; [reflexivity|]); reflexivity|split; [|split; [|split]]; reflexivity|repeat (split; [reflexivity|]); reflexivity]. Qed.

Definition timeless (r : pd) : pd := set_sc_tstamp 0 r.
Lemma time_req1 p : timeless (reqcore p) = reqcore (set_sc_tstamp 0 p).
Proof. reflexivity. Qed.
Lemma time_req p q : set_sc_tstamp 0 q = set_sc_tstamp 0 p -> timeless (reqcore q) = timeless (reqcore p).
Proof. intros H. rewrite !time_req1, H. reflexivity. Qed.

Lemma dev_turn2 e c p p1 d p3 r oc pay w0 : pd_inv p -> hears e w0 -> in_session e p -> takes p [] e d p1 -> line_reply c p1 -> quiet c -> rb_contents (rb p1) = [] -> bytes d ->
  decode_command e p1 d = Ok (p3, r, oc) -> r = RNone \/ r = RReply -> same_link p1 p3 -> rb p3 = rb p1 -> in_sc_handshake true (reply_id p3) = false ->
  ~ (cmd_id p3 = CMD_KEYSET /\ reply_id p3 = REPLY_ACK) -> fits (tx_buf_size p3) (sc_active (fl p3)) pay -> nth 0 pay 0 <> 121 ->
  (forall y smb m, reply_id y = reply_id p3 -> eph y = eph p3 -> caps y = caps p3 -> pid y = pid p3 -> zlen pay + 2 <= m -> 60 <= m -> build_switch e y smb m = Ok (y, Some pay, None, [])) ->
  exists q w, pd_refresh e p = Ok (q, oc ++ [OTx w]) /\ quiet q /\ timeless (reqcore q) = timeless (reqcore p3) /\ pd_inv q /\ (sc_active (fl c) = false -> line c q) /\
  forall h, hears h w -> exists c1, takes c [] h pay c1 /\ linkcore c1 = linkcore c /\ rx_base c1 /\ rb_contents (rb c1) = [] /\ line (state_reset false c1) q /\ sc_active (fl c1) = sc_active (fl c).
Proof.
  intros I H S TK L Qc RC Bd DC R SL RB HS NK F NB BS. pose proof (hears_env _ _ H) as K. pose proof H as (_ & CT & _ & TX & _).
  pose proof (takes_inv e p d p1 K I TK) as B1. destruct (decode_command_inv e p1 d p3 r oc K Bd B1 DC) as [B3 _].
  pose proof (line_reply_p _ _ _ SL L) as L3.
  set (p4 := match r with RNone => bumped e p3 | _ => p3 end).
  assert (X : same_link p3 p4 /\ rb p4 = rb p3 /\ reply_id p4 = reply_id p3 /\ cmd_id p4 = cmd_id p3 /\ eph p4 = eph p3 /\ caps p4 = caps p3 /\ pid p4 = pid p3 /\ peer_rx p4 = peer_rx p3 /\
    set_sc_tstamp 0 p4 = set_sc_tstamp 0 p3 /\ binv p4).
  { unfold p4. destruct R as [-> | ->].
    - destruct (same_bumped e p3) as (a & b & c0 & d0 & f & g & h & i & j). repeat (split; [assumption|]). exact (binv_bumped e p3 B3).
    - split; [split; [|split; [|split]]; reflexivity|]. repeat (split; [reflexivity|]). exact B3. }
  destruct X as (x1 & x2 & x3 & x4 & x5 & x6 & x7 & x8 & x9 & x10).
  assert (PF : pd_finish e (p3, r, oc) = do y <- reply_phase e p4 ; match y with (p5, o2) => Ok (p5, oc ++ o2) end) by (unfold p4; destruct R as [-> | ->]; reflexivity).
  clearbody p4.
  assert (TB : tx_buf_size p4 = tx_buf_size p3) by (unfold tx_buf_size; rewrite x8; reflexivity).
  assert (FL : fl p4 = fl p3) by apply x1.
  destruct (dev_says2 e c p4 None pay [] x10 (proj1 (proj2 CT)) TX (line_reply_p _ _ _ x1 L3) Qc ltac:(rewrite x3; exact HS) ltac:(rewrite x2, RB; exact RC) ltac:(rewrite x3, x4; exact NK)
    ltac:(rewrite TB, FL; exact F) NB) as (q & w & RP & Qq & RQ & PL & G).
  { cbn [with_file]. apply BS; [exact x3|exact x5|exact x6|exact x7| |]; (apply (room_reply p4 pay); [rewrite x3; exact HS|rewrite TB, FL; exact F]). }
  assert (RF : pd_refresh e p = Ok (q, oc ++ [OTx w])).
  { rewrite (dev_hears e p d p1 S TK), DC, bind_Ok. cbn [app] in RP.
    rewrite PF, RP. reflexivity. }
  exists q, w. split; [exact RF|]. split; [exact Qq|]. cbn [with_file] in RQ.
  split. { rewrite RQ. exact (time_req _ _ x9). }
  split; [|exact (conj PL G)]. exact (do_inv (Refresh e) p q _ CT I RF).
Qed.
Lemma dev_turn e c p p1 d p3 r oc pay w0 : pd_inv p -> hears e w0 -> in_session e p -> takes p [] e d p1 -> line_reply c p1 -> quiet c -> rb_contents (rb p1) = [] -> bytes d ->
  decode_command e p1 d = Ok (p3, r, oc) -> r = RNone \/ r = RReply -> same_link p1 p3 -> rb p3 = rb p1 -> in_sc_handshake true (reply_id p3) = false ->
  ~ (cmd_id p3 = CMD_KEYSET /\ reply_id p3 = REPLY_ACK) -> fits (tx_buf_size p3) (sc_active (fl p3)) pay -> nth 0 pay 0 <> 121 ->
  (forall y smb m, reply_id y = reply_id p3 -> eph y = eph p3 -> caps y = caps p3 -> pid y = pid p3 -> zlen pay + 2 <= m -> 60 <= m -> build_switch e y smb m = Ok (y, Some pay, None, [])) ->
  exists q w, pd_refresh e p = Ok (q, oc ++ [OTx w]) /\ quiet q /\ timeless (reqcore q) = timeless (reqcore p3) /\ pd_inv q /\
  forall h, hears h w -> exists c1, takes c [] h pay c1 /\ linkcore c1 = linkcore c /\ rx_base c1 /\ rb_contents (rb c1) = [] /\ line (state_reset false c1) q /\ sc_active (fl c1) = sc_active (fl c).
Proof.
  intros I H S TK L Qc RC Bd DC R SL RB HS NK F NB BS.
  destruct (dev_turn2 e c p p1 d p3 r oc pay w0 I H S TK L Qc RC Bd DC R SL RB HS NK F NB BS) as (q & w & X1 & X2 & X3 & X4 & _ & G).
  exists q, w. exact (conj X1 (conj X2 (conj X3 (conj X4 G)))).
Qed.

(* --- the panel's end --- *)

Definition done (e : env) (z : pd) : pd :=
  set_phy_state PDone (let p2 := set_tstamp (e_now e) z in if sc_active (fl p2) then set_sc_tstamp (e_now e) p2 else p2).

Lemma pan_done e c d q z : phy_state c = PReplyWait -> takes c [] e d q -> decode_response e q d = Ok (z, CNone, []) -> state_update e c = after_phy e (state c) (done e z) [].
Proof. intros P T D. rewrite (pan_hears_reply e c d q P T), D, bind_Ok. reflexivity. Qed.

(* what a transaction keeps at its end *)
Record kept (z q : pd) : Prop := {
  kp_pid : pid q = pid z;
  kp_caps : caps q = caps z;
  kp_seq : seqn q = seqn z;
  kp_addr : address q = address z;
  kp_peer : peer_rx q = peer_rx z;
  kp_mode : pd_mode (fl q) = pd_mode (fl z);
  kp_skip : skip_seq (fl q) = skip_seq (fl z);
  kp_act : sc_active (fl q) = sc_active (fl z);
  kp_sc : sc q = sc z \/ sc_active (fl z) = false;
  kp_rb : rb q = rb z /\ pbuf q = pbuf z;
  kp_len : plen q = 0 /\ pblen q = 0;
  kp_phy : phy_state q = PIdle
}.

Lemma kept_line z q p : kept z q -> line z p -> line q p.
Proof.
  intros K [E L]. assert (E' : ends q p).
  { destruct E as [e1 e2 e3 e4 e5]. constructor; rewrite ?(kp_mode z q K), ?(kp_skip z q K), ?(kp_addr z q K); assumption. }
  split; [exact E'|]. destruct L as [L | L].
  - left. rewrite (kp_act z q K), (kp_seq z q K). exact L.
  - right. destruct (kp_sc z q K) as [S | S]; [|rewrite (proj1 (is_act z p L)) in S; discriminate].
    destruct L as [e1 e2 e3 e4 e5 e6 e7]. constructor; rewrite ?(kp_act z q K), ?(kp_seq z q K), ?S; assumption.
Qed.

Lemma kept_quiet z q : kept z q -> rx_base z -> rb_contents (rb z) = [] -> quiet q.
Proof.
  intros K (a & b & c & d) R. destruct (kp_rb z q K) as [r1 r2]. destruct (kp_len z q K) as [l1 l2]. unfold quiet. rewrite r1, r2, l1, l2.
  split; [reflexivity|]. split; [reflexivity|]. split; [exact R|]. split; [exact a|]. split; [exact c|exact d].
Qed.

Lemma done_fields e z : fl (done e z) = fl z /\ state (done e z) = state z /\ reply_id (done e z) = reply_id z /\ cmd_id (done e z) = cmd_id z /\ rq_restart (done e z) = rq_restart z /\
  rq_offline (done e z) = rq_offline z /\ rq_event (done e z) = rq_event z /\ eph (done e z) = eph z /\ idx (done e z) = idx z.
Proof. unfold done. cbv zeta. destruct (sc_active (fl (set_tstamp (e_now e) z))); repeat (split; [reflexivity|]); reflexivity. Qed.

Lemma done_kept e z : kept z (state_reset false (done e z)).
Proof.
  assert (X : forall b, kept z (state_reset false (set_phy_state PDone (if b : bool then set_sc_tstamp (e_now e) (set_tstamp (e_now e) z) else set_tstamp (e_now e) z)))).
  { intros [|]; constructor; try reflexivity; try (left; reflexivity); split; reflexivity. }
  exact (X _).
Qed.

Lemma kept_trans a b c : kept a b -> kept b c -> kept a c.
Proof.
  intros A B. constructor; try (etransitivity; [apply B|apply A]).
  - destruct (kp_sc a b A) as [X|X]; [|right; exact X]. destruct (kp_sc b c B) as [Y|Y]; [left; congruence|right]. rewrite <- (kp_act a b A). exact Y.
  - destruct (kp_rb a b A), (kp_rb b c B). split; congruence.
  - apply B.
  - apply B.
Qed.

Lemma after_done e cur z : after_phy e cur (done e z) [] =
  do x <- state_check_reply e (done e z) ; match x with (p1, st, o1) => finish_update e cur (state_reset false p1) st (o1 ++ notify_command_status e p1 st) end.
Proof. unfold after_phy. replace (phy_state (done e z)) with PDone by (unfold done; cbv zeta; destruct (sc_active _); reflexivity). reflexivity. Qed.

Lemma kept_state s z q : kept z q -> kept z (set_state s q).
Proof. intros [? ? ? ? ? ? ? ? ? ? ? ?]. constructor; assumption. Qed.
Lemma setup_sc rnd p : exists s, sc_setup rnd p = set_sc s p.
Proof. unfold sc_setup. cbv zeta. destruct (pd_mode (fl p)); eexists; reflexivity. Qed.
Lemma kept_setup rnd s z q : kept z q -> sc_active (fl z) = false -> kept z (set_state s (sc_setup rnd q)).
Proof.
  intros [? ? ? ? ? ? ? ? ? ? ? ?] A. destruct (setup_sc rnd q) as (x & ->). constructor; try assumption. right; exact A.
Qed.
Lemma kept_off t w s z q : kept z q -> sc_active (fl z) = false -> kept z (set_state s (sc_deactivate (set_wait_ms w (set_tstamp t q)))).
Proof. intros [? ? ? ? ? ? ? ? ? ? ? ?] A. constructor; try assumption. symmetry; exact A. Qed.
Lemma kept_rq a z q : kept z q -> kept z (set_rq_offline a q).
Proof. intros [? ? ? ? ? ? ? ? ? ? ? ?]. constructor; assumption. Qed.
Lemma kept_ev a z q : kept z q -> kept z (set_rq_event a q).
Proof. intros [? ? ? ? ? ? ? ? ? ? ? ?]. constructor; assumption. Qed.
Lemma kept_dflt a z q : kept z q -> kept z (set_use_scbkd a q).
Proof. intros [? ? ? ? ? ? ? ? ? ? ? ?]. constructor; assumption. Qed.

(* after PDID *)
Lemma init_end e z : state z = SInit -> reply_id z = 69 -> cmd_id z = 97 ->
  exists q, after_phy e SInit (done e z) [] = Ok (q, CYield, []) /\ kept z q /\ state q = SCapdet.
Proof.
  intros S R C. rewrite after_done. destruct (done_fields e z) as (_ & f2 & f3 & f4 & _). pose proof (done_kept e z) as K. generalize dependent (done e z). intros y f2 f3 f4 K.
  unfold state_check_reply. rewrite f2, S. cbv iota. rewrite f3, R. cbn [Z.eqb Pos.eqb REPLY_PDID bind].
  unfold notify_command_status, app_cmd_of. rewrite f4, C. cbn [Z.eqb Pos.eqb CMD_OUT CMD_LED CMD_BUZ CMD_TEXT CMD_COMSET CMD_ISTAT CMD_OSTAT CMD_LSTAT CMD_RSTAT CMD_KEYSET CMD_MFG orb andb app].
  unfold finish_update, next_ok_state. change (state (state_reset false y)) with (state y). rewrite f2, S. cbv iota. rewrite bind_Ok.
  unfold do_requests. change (state (state_reset false y)) with (state y). rewrite f2, S. cbn [st_eqb orb state_change app].
  eexists. split; [reflexivity|]. split; [apply kept_state; exact K|reflexivity].
Qed.

(* after PDCAP *)
Lemma cap_end e z : state z = SCapdet -> reply_id z = 70 -> cmd_id z = 98 -> rq_restart z = false -> sc_active (fl z) = false ->
  exists q o, after_phy e SCapdet (done e z) [] = Ok (q, CYield, o) /\ kept z q.
Proof.
  intros S R C RR A. rewrite after_done. destruct (done_fields e z) as (_ & f2 & f3 & f4 & f5 & f6 & _). pose proof (done_kept e z) as K. generalize dependent (done e z). intros y f2 f3 f4 f5 f6 K.
  unfold state_check_reply. rewrite f2, S. cbv iota. rewrite f3, R. cbn [Z.eqb Pos.eqb REPLY_PDCAP bind].
  unfold notify_command_status, app_cmd_of. rewrite f4, C. cbn [Z.eqb Pos.eqb CMD_OUT CMD_LED CMD_BUZ CMD_TEXT CMD_COMSET CMD_ISTAT CMD_OSTAT CMD_LSTAT CMD_RSTAT CMD_KEYSET CMD_MFG orb andb app].
  assert (Y1 : state (state_reset false y) = SCapdet) by exact (eq_trans f2 S).
  assert (Y2 : rq_restart (state_reset false y) = false) by exact (eq_trans f5 RR).
  generalize dependent (state_reset false y). intros x K Y1 Y2. clear f2 f3 f4 f5 f6.
  unfold finish_update, next_ok_state. rewrite Y1. cbv iota.
  destruct (sc_is_capable x); [|destruct (enforce (fl x))]; rewrite bind_Ok; unfold do_requests.
  - change (state (set_use_scbkd false x)) with (state x). rewrite Y1. cbn [st_eqb orb]. cbn [state_change].
    do 2 eexists. split; [reflexivity|]. apply kept_setup; [apply kept_dflt; exact K|exact A].
  - rewrite Y1. cbn [st_eqb orb state_change]. do 2 eexists. split; [reflexivity|]. apply kept_off; assumption.
  - rewrite Y1. cbn [st_eqb orb]. rewrite Y2. destruct (rq_offline x).
    + change (rq_event (set_rq_offline false x)) with (rq_event x). destruct (rq_event x); cbn [st_eqb state_change]; do 2 eexists; (split; [reflexivity|]); apply kept_off; try exact A.
      * apply kept_ev, kept_rq; exact K.
      * apply kept_rq; exact K.
    + destruct (rq_event x); cbn [st_eqb state_change]; do 2 eexists; (split; [reflexivity|]); apply kept_state; [apply kept_ev; exact K|exact K].
Qed.

(* a reply to a poll that reports an event *)
Lemma event_end e z ev : state z = SOnline -> poll_reply (reply_id z) = true -> cmd_id z = 96 -> rq_restart z = false -> rq_offline z = false -> rq_event z = true -> eph z = EphEv ev ->
  e_evcb e = true -> exists q, after_phy e SOnline (done e z) [] = Ok (q, CYield, [OEv (idx z) ev]) /\ kept z q.
Proof.
  intros S R C RR RO RE EP CB. rewrite after_done. destruct (done_fields e z) as (f1 & f2 & f3 & f4 & f5 & f6 & f7 & f8 & f9). pose proof (done_kept e z) as K. generalize dependent (done e z). intros y f1 f2 f3 f4 f5 f6 f7 f8 f9 K.
  unfold state_check_reply. rewrite f2, S. cbv iota. unfold check_online_response. rewrite f3, f4, C.
  replace (reply_id z =? REPLY_ACK) with false by (clear - R; unfold poll_reply in R; destruct (reply_id z =? REPLY_ACK) eqn:E; [|reflexivity]; apply Z.eqb_eq in E; rewrite E in R; discriminate).
  replace ((reply_id z =? REPLY_NAK) || (reply_id z =? REPLY_INVALID)) with false.
  2:{ clear - R. destruct (reply_id z =? REPLY_NAK) eqn:E1; [apply Z.eqb_eq in E1; rewrite E1 in R; discriminate|]. destruct (reply_id z =? REPLY_INVALID) eqn:E2; [apply Z.eqb_eq in E2; rewrite E2 in R; discriminate|]. reflexivity. }
  rewrite R. cbn [Z.eqb Pos.eqb CMD_POLL orb bind].
  unfold notify_command_status, app_cmd_of. rewrite f4, C. cbn [Z.eqb Pos.eqb CMD_OUT CMD_LED CMD_BUZ CMD_TEXT CMD_COMSET CMD_ISTAT CMD_OSTAT CMD_LSTAT CMD_RSTAT CMD_KEYSET CMD_MFG orb andb app].
  assert (Y : state (state_reset false y) = SOnline /\ rq_restart (state_reset false y) = false /\ rq_offline (state_reset false y) = false /\ rq_event (state_reset false y) = true /\
     eph (state_reset false y) = EphEv ev /\ idx (state_reset false y) = idx z /\ sc_active (fl (state_reset false y)) = sc_active (fl z)).
  { change (state y = SOnline /\ rq_restart y = false /\ rq_offline y = false /\ rq_event y = true /\ eph y = EphEv ev /\ idx y = idx z /\ sc_active (fl y) = sc_active (fl z)).
    rewrite f1. repeat split; congruence. }
  generalize dependent (state_reset false y). intros x K (Y1 & Y2 & Y3 & Y4 & Y5 & Y6 & Y7). clear f1 f2 f3 f4 f5 f6 f7 f8 f9.
  unfold finish_update, next_ok_state. rewrite Y1. cbv iota. rewrite bind_Ok. unfold do_requests. rewrite Y1. cbn [st_eqb orb]. rewrite Y2, Y3, Y4.
  unfold do_event_callback. rewrite CB. change (eph (set_rq_event false x)) with (eph x). change (idx (set_rq_event false x)) with (idx x). rewrite Y5, Y6.
  destruct (sc_should_retry e x) eqn:SR; cbn [st_eqb state_change app].
  - eexists. split; [reflexivity|]. apply kept_setup; [apply kept_ev; exact K|].
    unfold sc_should_retry in SR. rewrite <- Y7. destruct (sc_active (fl x)); [|reflexivity]. rewrite andb_false_r in SR. discriminate.
  - eexists. split; [reflexivity|]. apply kept_ev; exact K.
Qed.
