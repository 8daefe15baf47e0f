(** Panel and device at work: what each of the calls does in each phase of an exchange. *)
From Verif Require Import Base ListLemmas Crc SpecCrc CrcProofs CrcBurst Aes AesProofs Rb RbProofs
  Types Sc ScProofs Phy PhyCheck File Pd Cp PdRun SpecRx SpecFrame SpecSec SpecSession SpecCmd SpecApp SpecPd SpecLink RxProofs RxFwd PdRx PdCore PhyTx PdTx PdReply
  PdStep PdWire PdFwd PdSec PdApp PdTrace PdHist2 MacProofs WireSec CpCtx SpecCp SpecCpRun CpTx CpRx CpStep CpInv CpEdge CpFacts CpSum CpFwd Chunk Trip ChunkRun LinkProofs LinkStep CpSend SpecTalk Hand Line Talk Talk2 Talk3 Talk4 Talk5 PdPlain PdRefuse SpecLost Lost Lost2 ExPd SpecHand SpecRun.
From Coq Require Import ZifyBool ZifyNat.
Ltac Zify.zify_post_hook ::= Z.div_mod_to_equations.
Local Opaque aes_ecb_encrypt aes_cbc_encrypt aes_cbc_decrypt mac_of RB_SIZE osdp_mac enc1 osdp_encrypt encrypt_data cap_entries.

(* --- nothing arrives --- *)
Lemma recv_none e r : heard (e_rx e) = [] -> channel_receive (e_rx e) r 0 = (r, 0).
Proof.
  intros H. destruct (e_rx e) as [|c cs]; [reflexivity|]. cbn [heard] in H. cbn [channel_receive].
  assert (Z0 : zlen (firstn 64 c) = 0).
  { destruct (Nat.eqb (length (firstn 64 c)) 64) eqn:E.
    - apply app_eq_nil in H. destruct H as [H _]. rewrite H in E. discriminate.
    - rewrite H. reflexivity. }
  rewrite Z0. reflexivity.
Qed.
Lemma check_none e p : quiet p -> heard (e_rx e) = [] -> check_packet e p = Ok (p, KNoData).
Proof.
  intros (Q1 & Q2 & Q3 & Q4 & _ & _) H. unfold check_packet. rewrite (recv_none e (rb p) H), rb_same. cbv zeta.
  change (0 >? 0) with false. rewrite andb_false_r. rewrite Q2. change (0 =? 0) with true. cbv iota.
  unfold check_header. rewrite Q1. change (0 =? 0) with true. cbv iota.
  cbn [scan]. pose proof (rb_pop_spec (rb p) Q4) as S. rewrite Q3 in S. rewrite S, rb_same, !bind_Ok. reflexivity.
Qed.
Lemma dev_none e p : quiet p -> in_session e p -> heard (e_rx e) = [] -> pd_refresh e p = Ok (p, []).
Proof. intros Q S H. unfold pd_refresh, receive_and_process. rewrite (no_timeout e p S), (check_none e p Q H), !bind_Ok. reflexivity. Qed.
Lemma pan_none e c : phy_state c = PReplyWait -> quiet c -> heard (e_rx e) = [] -> e_now e - phy_tstamp c <= 200 -> state_update e c = Ok (c, CInprog, []).
Proof.
  intros P Q H T. rewrite update_reply by exact P. unfold phy_reply_wait, process_reply. rewrite (check_none e c Q H), !bind_Ok.
  change RESP_TOUT with 200. replace (e_now e - phy_tstamp c >? 200) with false by lia. reflexivity.
Qed.

(* a packet is not empty *)
Lemma hears_none : hears (ex_env 0 []) [].
Proof.
  assert (B : forallb bytesb [] = true) by reflexivity. pose proof (ex_env_typed 0 [] B) as T. destruct T as (T1 & T2 & T3).
  split; [split; [exact T1|split; [exact T2|intros; discriminate]]|]. split; [exact (conj T1 (conj T2 T3))|].
  split; [split; [constructor|unfold fits_ring; apply Nat.ltb_lt; vm_compute; reflexivity]|]. split; [cbn; lia|].
  exists [], []. repeat split; [intros []|left; reflexivity].
Qed.
Lemma takes_heard p e d q : quiet p -> takes p [] e d q -> heard (e_rx e) <> [].
Proof. intros Q (p1 & p2 & W & C & _) H. inversion W; subst. rewrite (check_none e p1 Q H) in C. discriminate. Qed.
Lemma spoken p d w (K : env -> pd -> Prop) : quiet p -> (forall h, hears h w -> exists q, takes p [] h d q /\ K h q) -> w <> [].
Proof. intros Q G ->. destruct (G _ hears_none) as (q & T & _). apply (takes_heard p _ d q Q T). reflexivity. Qed.
Lemma hears_left e w : w <> [] -> hears e w -> left_over e w = [].
Proof.
  intros N (_ & _ & _ & _ & (n & m & E & _)). unfold left_over. destruct (heard (e_rx e)) eqn:H; [|reflexivity].
  rewrite !app_assoc, app_nil_r in E. symmetry in E. apply app_eq_nil in E. destruct E as [_ E]. contradiction.
Qed.
Lemma none_left e w : heard (e_rx e) = [] -> left_over e w = w.
Proof. intros H. unfold left_over. rewrite H. reflexivity. Qed.

(* --- the command is executed and acknowledged --- *)
Definition acked (code : Z) (p : pd) : pd := set_reply_id 64 (set_cmd_id code (set_reply_id 0 p)).
Lemma ack_by e p k : enforce (fl p) = false \/ sc_active (fl p) = true ->
  decode_switch e (set_cmd_id (cmd_code k) (set_reply_id 0 p)) (cmd_code k) (cmd_data k) = Some (Ok (acked (cmd_code k) p, RNone, [OCmd (upto k)])) ->
  decode_command e p (cmd_wire k) = Ok (acked (cmd_code k) p, RNone, [OCmd (upto k)]).
Proof.
  intros E D. unfold decode_command, cmd_wire. cbv zeta. change (getb (cmd_code k :: cmd_data k) 0) with (cmd_code k). change (from (cmd_code k :: cmd_data k) 1) with (cmd_data k).
  change (fl (set_cmd_id (cmd_code k) (set_reply_id 0 p))) with (fl p).
  replace (enforce (fl p) && negb (sc_active (fl p))) with false by (destruct E as [-> | ->]; [reflexivity|rewrite andb_false_r; reflexivity]). cbn [andb].
  rewrite D, bind_Ok. reflexivity.
Qed.
Lemma ack_verdict e p k : enforce (fl p) = false \/ sc_active (fl p) = true -> fst (e_cb e 0 (upto k)) = 0 ->
  (forall p1, caps p1 = caps p -> has_cb p1 = has_cb p -> decode_switch e p1 (cmd_code k) (cmd_data k) =
      Some (match do_callback e 0 p1 (upto k) with
      | (p1, false, _, o) => Ok (p1, RReply, o)
      | (p1, true, _, o) => Ok (set_reply_id REPLY_ACK p1, RNone, o)
      end)) -> decode_command e p (cmd_wire k) = Ok (acked (cmd_code k) p, RNone, [OCmd (upto k)]).
Proof.
  intros E A D. apply ack_by; [exact E|]. rewrite D by reflexivity. unfold do_callback. destruct (e_cb e 0 (upto k)) as [rc c1]. cbn [fst] in A. rewrite A. reflexivity.
Qed.
Lemma ack_record e p k n dec : enforce (fl p) = false \/ sc_active (fl p) = true -> fst (e_cb e 0 (upto k)) = 0 -> has_cb p = true ->
  (forall p1, decode_switch e p1 (cmd_code k) (cmd_data k) = Some (do_multi e p1 n dec (cmd_data k))) -> zlen (cmd_data k) = n -> 0 < n -> dec (cmd_data k) = upto k ->
  rec_covered (caps p) (upto k) = true -> decode_command e p (cmd_wire k) = Ok (acked (cmd_code k) p, RNone, [OCmd (upto k)]).
Proof.
  intros E A HC D L P X C. apply ack_by; [exact E|]. rewrite D. set (p1 := set_cmd_id (cmd_code k) (set_reply_id 0 p)). unfold do_multi.
  change (has_cb p1) with (has_cb p). rewrite HC, L, Z_mod_same_full, Z_div_same_full by lia. cbn [Z.eqb negb orb Z.to_nat Pos.to_nat Pos.iter_op Init.Nat.add chunks map].
  change (Z.to_nat 1) with 1%nat. cbn [chunks map do_records].
  assert (SB : sub (cmd_data k) 0 n = cmd_data k) by (unfold sub; rewrite <- L; unfold zlen; rewrite Nat2Z.id; cbn [Z.to_nat skipn]; apply firstn_all).
  rewrite SB, X. replace (rec_ok p1 (upto k)) with true by (rewrite PdAnswer.rec_covered_eq; symmetry; exact C).
  cbn [negb]. unfold do_callback. destruct (e_cb e 0 (upto k)) as [rc c1]. cbn [fst] in A. rewrite A. reflexivity.
Qed.
Lemma ack_hear e p k : plain_cmd k -> cmd_in_range k -> has_cb p = true -> cap_covers (caps p) k -> enforce (fl p) = false \/ sc_active (fl p) = true -> fst (e_cb e 0 (upto k)) = 0 ->
  decode_command e p (cmd_wire k) = Ok (acked (cmd_code k) p, RNone, [OCmd (upto k)]).
Proof.
  intros PC R HC CC E A. destruct k; cbn [cmd_in_range cap_covers plain_cmd] in R, CC, PC; try tauto.
  - apply (ack_record e p _ 4 dec_out); try assumption; try reflexivity; try lia.
    + cbn [cmd_data upto dec_out]. unfold dec_out, getb. simpl. rewrite wire16, Z.mod_small by lia. reflexivity.
    + cbn [upto rec_covered]. lia.
  - apply (ack_record e p _ 14 dec_led); try assumption; try reflexivity; try lia.
    + destruct R as (_ & _ & (_ & _ & _ & _ & _ & R) & _). cbn [cmd_data upto app led_wire]. unfold dec_led, getb. simpl. rewrite wire16, Z.mod_small by lia. destruct temporary; reflexivity.
    + cbn [upto rec_covered]. lia.
  - apply (ack_record e p _ 5 dec_buz); try assumption; try reflexivity; try lia.
    cbn [upto rec_covered]. lia.
  - destruct R as (_ & _ & _ & _ & _ & R1 & R2 & _). apply ack_verdict; [exact E|exact A|]. intros p1 C1 H1.
    cbn [cmd_code cmd_data upto app]. set (t := firstn (Z.to_nat len) data). assert (T : zlen t = len) by (apply firstn_zlen; lia).
    change (decode_switch e p1 107 (reader :: control_code :: temp_time :: offset_row :: offset_col :: len :: t)) with (Some (do_text e p1 (reader :: control_code :: temp_time :: offset_row :: offset_col :: len :: t))).
    unfold do_text. rewrite H1, HC, !zlen_cons, T. unfold getb. change (Z.to_nat 0) with 0%nat. change (Z.to_nat 1) with 1%nat. change (Z.to_nat 2) with 2%nat. change (Z.to_nat 3) with 3%nat. change (Z.to_nat 4) with 4%nat. change (Z.to_nat 5) with 5%nat. cbn [nth]. cbv zeta.
    assert (SB : sub (reader :: control_code :: temp_time :: offset_row :: offset_col :: len :: t) 6 len = t).
    { unfold sub. change (Z.to_nat 6) with 6%nat. cbn [skipn]. rewrite <- T. unfold zlen. rewrite Nat2Z.id. apply firstn_all. }
    rewrite SB. rewrite (covers_text p1) by (rewrite C1; apply CC).
    match goal with |- context [?a <? 6] => replace (a <? 6) with false by lia end. cbn [negb orb].
    match goal with |- context [(len >? 32) || ?b] => replace ((len >? 32) || b) with false by lia end. reflexivity.
  - destruct R as (R0 & _ & R1 & R2 & _). apply ack_verdict; [exact E|exact A|]. intros p1 C1 H1.
    cbn [cmd_code cmd_data upto app]. set (t := firstn (Z.to_nat len) data). assert (T : zlen t = len) by (apply firstn_zlen; lia).
    match goal with |- decode_switch e p1 128 ?l = _ => change (decode_switch e p1 128 l) with (Some (do_mfg e p1 l)) end.
    unfold do_mfg. rewrite H1, HC, !zlen_cons, T. unfold getb. change (Z.to_nat 0) with 0%nat. change (Z.to_nat 1) with 1%nat. change (Z.to_nat 2) with 2%nat. change (Z.to_nat 3) with 3%nat. cbn [nth]. cbv zeta.
    change (from (_ :: _ :: _ :: _ :: t) 4) with t. rewrite wire24, Z.mod_small by lia.
    match goal with |- context [?a <? 4] => replace (a <? 4) with false by lia end. cbn [negb orb].
    replace (1 + (1 + (1 + (1 + len))) - 4) with len by lia. replace (len >? 64) with false by lia. reflexivity.
Qed.

(* --- the end of the exchange at the panel --- *)
Definition ended (e : env) (z : pd) : pd := state_reset false (done e z).
Lemma ended_fields e z : fl (ended e z) = fl z /\ state (ended e z) = state z /\ rq_offline (ended e z) = rq_offline z /\ rq_event (ended e z) = rq_event z /\ idx (ended e z) = idx z /\
  cmdq (ended e z) = cmdq z /\ caps (ended e z) = caps z /\ file (ended e z) = file z /\ peer_rx (ended e z) = peer_rx z /\ rq_restart (ended e z) = rq_restart z /\ eph (ended e z) = eph z.
Proof. unfold ended, done. cbv zeta. destruct (sc_active _); repeat split; reflexivity. Qed.
Lemma no_new_session e z : sc_active (fl z) = true \/ sc_is_capable z = false -> sc_should_retry e (ended e z) = false.
Proof.
  intros H. destruct (ended_fields e z) as (F & _). unfold sc_should_retry, sc_is_capable in *. rewrite F. destruct H as [-> |H].
  - cbn [negb]. rewrite andb_false_r. reflexivity.
  - rewrite H. reflexivity.
Qed.
Lemma notes_quiet e p st : on_wire (notify_command_status e p st) = [] /\ told_events (notify_command_status e p st) = [] /\ app_calls (notify_command_status e p st) = [].
Proof. unfold notify_command_status, notify. destruct (app_cmd_of p); [|auto]. destruct (_ && _); auto. Qed.
Lemma ack_ends e z : state z = SOnline -> reply_id z = 64 -> cmd_id z <> 117 -> rq_restart z = false -> rq_offline z = false -> rq_event z = false -> sc_active (fl z) = true \/ sc_is_capable z = false ->
  exists o, after_phy e SOnline (done e z) [] = Ok (ended e z, CYield, o) /\ on_wire o = [] /\ told_events o = [] /\ app_calls o = [].
Proof.
  intros S R C RR RO RE SC. rewrite after_done. pose proof (no_new_session e z SC) as NS. destruct (done_fields e z) as (f1 & f2 & f3 & f4 & _). destruct (ended_fields e z) as (g1 & g2 & g3 & g4 & _ & _ & _ & _ & _ & g5 & _).
  unfold state_check_reply. rewrite f2, S. cbv iota. unfold check_online_response. rewrite f3, f4, R.
  change (64 =? REPLY_ACK) with true. change CMD_KEYSET with 117. replace (cmd_id z =? 117) with false by lia. cbv iota. rewrite bind_Ok.
  destruct (notes_quiet e (done e z) true) as (N1 & N2 & N3). generalize dependent (notify_command_status e (done e z) true). intros o N1 N2 N3.
  fold (ended e z). generalize dependent (ended e z). intros x NS g1 g2 g3 g4 g5.
  unfold finish_update, next_ok_state. rewrite g2, S. cbv iota. rewrite bind_Ok. unfold do_requests. rewrite g2, S. cbn [st_eqb orb]. rewrite RR in g5; rewrite RO in g3; rewrite RE in g4; rewrite g5, g3, g4, NS. cbn [st_eqb app].
  exists o. rewrite !app_nil_r. split; [reflexivity|]. split; [exact N1|split; [exact N2|exact N3]].
Qed.
Lemma event_ends e z ev : state z = SOnline -> poll_reply (reply_id z) = true -> cmd_id z = 96 -> rq_restart z = false -> rq_offline z = false -> rq_event z = true -> eph z = EphEv ev ->
  e_evcb e = true -> sc_active (fl z) = true \/ sc_is_capable z = false -> after_phy e SOnline (done e z) [] = Ok (set_rq_event false (ended e z), CYield, [OEv (idx z) ev]).
Proof.
  intros S R C RR RO RE EP CB SC. rewrite after_done. pose proof (no_new_session e z SC) as NS. destruct (done_fields e z) as (f1 & f2 & f3 & f4 & _). destruct (ended_fields e z) as (g1 & g2 & g3 & g4 & g6 & _ & _ & _ & _ & g5 & g7).
  unfold state_check_reply. rewrite f2, S. cbv iota. unfold check_online_response. rewrite f3, f4, C.
  replace (reply_id z =? REPLY_ACK) with false by (clear - R; unfold poll_reply in R; destruct (reply_id z =? REPLY_ACK) eqn:E; [|reflexivity]; apply Z.eqb_eq in E; rewrite E in R; discriminate).
  replace ((reply_id z =? REPLY_NAK) || (reply_id z =? REPLY_INVALID)) with false.
  2:{ clear - R. destruct (reply_id z =? REPLY_NAK) eqn:E1; [apply Z.eqb_eq in E1; rewrite E1 in R; discriminate|]. destruct (reply_id z =? REPLY_INVALID) eqn:E2; [apply Z.eqb_eq in E2; rewrite E2 in R; discriminate|]. reflexivity. }
  rewrite R. cbn [Z.eqb Pos.eqb CMD_POLL orb bind].
  unfold notify_command_status, app_cmd_of. rewrite f4, C. cbn [Z.eqb Pos.eqb CMD_OUT CMD_LED CMD_BUZ CMD_TEXT CMD_COMSET CMD_ISTAT CMD_OSTAT CMD_LSTAT CMD_RSTAT CMD_KEYSET CMD_MFG orb andb app].
  fold (ended e z). generalize dependent (ended e z). intros x NS g1 g2 g3 g4 g6 g5 g7.
  unfold finish_update, next_ok_state. rewrite g2, S. cbv iota. rewrite bind_Ok. unfold do_requests. rewrite g2, S. cbn [st_eqb orb]. rewrite RR in g5; rewrite RO in g3; rewrite RE in g4; rewrite g5, g3, g4, NS.
  unfold do_event_callback. rewrite CB. change (eph (set_rq_event false x)) with (eph x). change (idx (set_rq_event false x)) with (idx x). rewrite g7, EP, g6. reflexivity.
Qed.

(* the panel has nothing to do *)
Lemma pan_rests e c : state c = SOnline -> phy_state c = PIdle -> cmdq c = [] -> no_transfer c -> e_now e - tstamp c <= 50 -> rq_restart c = false -> rq_offline c = false -> rq_event c = false ->
  sc_active (fl c) = true \/ sc_is_capable c = false -> state_update e c = Ok (set_cmd_id (-1) c, CYield, []).
Proof.
  intros S P Q F T RR RO RE SC.
  assert (G : state_get_cmd e c = Ok (c, -1, [])).
  { unfold state_get_cmd. rewrite S. unfold get_online_command. rewrite Q. unfold file_tx_get_command, no_transfer in *.
    change POLL_TIMEOUT with 50. destruct (file c) as [f|]; [destruct F as [-> | ->]|]; cbn [Z.eqb negb]; replace (e_now e - tstamp c >? 50) with false by lia; reflexivity. }
  assert (NS : sc_should_retry e (set_cmd_id (-1) c) = false).
  { unfold sc_should_retry, sc_is_capable in *. change (fl (set_cmd_id (-1) c)) with (fl c). destruct SC as [-> |H]; [cbn [negb]; rewrite andb_false_r; reflexivity|rewrite H; reflexivity]. }
  unfold state_update, phy_running. rewrite P. cbv iota zeta. unfold after_phy. rewrite P, G, bind_Ok. cbv iota zeta. change (-1 >? 0) with false. cbv iota.
  unfold finish_update, next_ok_state. change (state (set_cmd_id (-1) c)) with (state c). rewrite S. cbv iota. rewrite bind_Ok. rewrite NS. unfold do_requests. change (state (set_cmd_id (-1) c)) with (state c). rewrite S.
  cbn [st_eqb orb]. change (rq_restart (set_cmd_id (-1) c)) with (rq_restart c). rewrite RR. change (rq_offline (set_cmd_id (-1) c)) with (rq_offline c). rewrite RO. change (rq_event (set_cmd_id (-1) c)) with (rq_event c). rewrite RE. reflexivity.
Qed.
