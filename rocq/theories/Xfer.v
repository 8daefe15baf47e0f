(** File transfer between panel and device. *)
From Verif Require Import Base ListLemmas Crc SpecCrc CrcProofs CrcBurst Aes AesProofs Rb RbProofs
  Types Sc ScProofs Phy PhyCheck File Pd Cp PdRun SpecRx SpecFrame SpecSec SpecSession SpecCmd SpecApp SpecPd SpecLink RxProofs RxFwd PdRx PdCore PhyTx PdTx PdReply
  PdStep PdWire PdFwd PdSec PdApp PdTrace PdHist2 MacProofs WireSec CpCtx SpecCp SpecCpRun CpTx CpRx CpStep CpInv CpEdge CpFacts CpSum CpFwd Chunk Trip ChunkRun LinkProofs LinkStep CpSend SpecHand SpecTalk SpecFile Hand Line Talk Talk2 Talk3 Talk4.
From Coq Require Import ZifyBool ZifyNat.
Ltac Zify.zify_post_hook ::= Z.div_mod_to_equations.
Local Opaque aes_ecb_encrypt aes_cbc_encrypt aes_cbc_decrypt mac_of RB_SIZE osdp_mac enc1 osdp_encrypt encrypt_data cap_entries.

Lemma file_init f p : set_file f (cp_init p) = cp_init (set_file f p).
Proof. reflexivity. Qed.
Lemma file_after f p : set_file f (after_init p) = after_init (set_file f p).
Proof. reflexivity. Qed.
Lemma init_file p : file (cp_init p) = file p /\ cmd_id (cp_init p) = cmd_id p.
Proof. split; reflexivity. Qed.
Lemma after_file p : file (after_init p) = file p /\ reply_id (after_init p) = reply_id p.
Proof. split; reflexivity. Qed.
Lemma room_eq c code : in_sc_handshake false code = false -> cmd_room (set_phy_state PSend (set_cmd_id code c)) = tx_buf_size c - (if sc_active (fl c) then 8 else 6).
Proof.
  intros H. unfold cmd_room, cp_hdr. change (tx_buf_size (set_phy_state PSend (set_cmd_id code c))) with (tx_buf_size c). change (fl (set_phy_state PSend (set_cmd_id code c))) with (fl c).
  change (cmd_id (set_phy_state PSend (set_cmd_id code c))) with code. rewrite H. destruct (sc_active (fl c)); reflexivity.
Qed.

(* the panel sends a chunk *)
Lemma ask_file e1 e2 c p fx d ob : cpi c -> env_typed e1 -> env_typed e2 -> 256 <= e_tx e2 -> phy_state c = PIdle -> state_get_cmd e1 c = Ok (c, 124, []) ->
  line c p -> quiet c -> quiet p -> fits (tx_buf_size c) (sc_active (fl c)) d ->
  (forall x smb, cmd_id x = 124 -> file x = file c -> build_cmd_switch e2 x smb (tx_buf_size c - (if sc_active (fl c) then 8 else 6)) = Ok (set_file fx x, Some d, None, ob)) ->
  exists c1 c2 w, state_update e1 c = Ok (c1, CYield, []) /\ state_update e2 c1 = Ok (c2, CInprog, ob ++ [OTx w]) /\ cpi c2 /\ quiet c2 /\ phy_state c2 = PReplyWait /\
    reqcore c2 = reqcore (set_file fx (set_cmd_id 124 c)) /\ sc_active (fl c2) = sc_active (fl c) /\
  forall h, hears h w -> exists p1, takes p [] h d p1 /\ line_reply c2 p1 /\ linkcore p1 = linkcore p /\ rx_base p1 /\ rb_contents (rb p1) = [] /\ sc_active (fl p1) = sc_active (fl p).
Proof.
  intros I T1 T2 TX P G L Qc Qp F BS. pose proof (pan_start e1 c c 124 P P G ltac:(lia)) as U1.
  assert (K0 : keeps_link c c) by (unfold keeps_link; repeat split; reflexivity).
  pose proof (room_eq c 124 eq_refl) as RE.
  set (c1 := set_phy_state PSend (set_cmd_id 124 c)) in *. pose proof (keeps_send 124 c c K0) as K1. fold c1 in K1.
  assert (D1 : cp_do (Update e1) c = Ok (c1, [])) by (unfold cp_do; rewrite U1; reflexivity).
  assert (I1 : cpi c1) by exact (cp_do_inv (Update e1) c c1 [] T1 I D1).
  assert (F1 : file c1 = file c) by reflexivity.
  assert (HS : in_sc_handshake false (cmd_id c1) = false) by reflexivity.
  assert (C1 : cmd_id c1 = 124) by reflexivity.
  assert (R1 : reqcore (set_file fx c1) = reqcore (set_file fx (set_cmd_id 124 c))) by reflexivity.
  assert (TB : tx_buf_size c1 = tx_buf_size c) by reflexivity.
  assert (FL : fl c1 = fl c) by reflexivity.
  assert (PS : phy_state c1 = PSend) by reflexivity.
  clearbody c1.
  destruct (pan_sends e2 c1 p (Some fx) d ob I1 T2 PS HS TX (line_c _ _ _ (keeps_same _ _ K1) L) (keeps_quiet _ _ K1 Qc) Qp ltac:(rewrite TB, FL; exact F)) as (c2 & w & U2 & Q2 & P2 & R2 & A2 & H2).
  { cbn [with_file]. rewrite <- file_init, RE. destruct (init_file c1) as [a b]. apply BS; congruence. }
  cbn [with_file] in R2.
  exists c1, c2, w. split; [exact U1|]. split; [exact U2|].
  split. { apply (cp_do_inv (Update e2) c1 c2 (ob ++ [OTx w]) T2 I1). unfold cp_do; rewrite U2; reflexivity. }
  split; [exact Q2|]. split; [exact P2|]. split; [rewrite R2; exact R1|]. split; [congruence|exact H2].
Qed.

(* the device's turn, with another file state after the answer is built *)
Lemma tell_file e c p p1 d p3 oc fx pay ob w0 : pd_inv p -> hears e w0 -> in_session e p -> takes p [] e d p1 -> line_reply c p1 -> quiet c -> rb_contents (rb p1) = [] -> bytes d ->
  decode_command e p1 d = Ok (p3, RNone, oc) -> same_link p1 p3 -> rb p3 = rb p1 -> reply_id p3 = 122 ->
  fits (tx_buf_size p3) (sc_active (fl p3)) pay -> nth 0 pay 0 <> 121 ->
  (forall y smb m, reply_id y = 122 -> file y = file p3 -> 60 <= m -> build_switch e y smb m = Ok (set_file fx y, Some pay, None, ob)) ->
  exists q w, pd_refresh e p = Ok (q, (oc ++ ob) ++ [OTx w]) /\ quiet q /\ timeless (reqcore q) = timeless (reqcore (set_file fx p3)) /\ pd_inv q /\
  forall h, hears h w -> exists c1, takes c [] h pay c1 /\ linkcore c1 = linkcore c /\ rx_base c1 /\ rb_contents (rb c1) = [] /\ line (state_reset false c1) q /\ sc_active (fl c1) = sc_active (fl c).
Proof.
  intros I H S TK L Qc RC Bd DC SL RB R3 F NB BS. pose proof (hears_env _ _ H) as K. pose proof H as (_ & CT & _ & TX & _).
  pose proof (takes_inv e p d p1 K I TK) as B1. destruct (decode_command_inv e p1 d p3 RNone oc K Bd B1 DC) as [B3 _].
  pose proof (line_reply_p _ _ _ SL L) as L3.
  assert (PF : pd_finish e (p3, RNone, oc) = do y <- reply_phase e (bumped e p3) ; match y with (p5, o2) => Ok (p5, oc ++ o2) end) by reflexivity.
  assert (FB : file (bumped e p3) = file p3) by (unfold bumped; destruct (sc_active (fl p3)); reflexivity).
  assert (BF : set_sc_tstamp 0 (set_file fx (bumped e p3)) = set_sc_tstamp 0 (set_file fx p3)) by (unfold bumped; destruct (sc_active (fl p3)); reflexivity).
  destruct (same_bumped e p3) as (x1 & x2 & x3 & x4 & x5 & x6 & x7 & x8 & x9). pose proof (binv_bumped e p3 B3) as x10.
  generalize dependent (bumped e p3). intros p4 PF FB BF x1 x2 x3 x4 x5 x6 x7 x8 x9 x10.
  assert (TB : tx_buf_size p4 = tx_buf_size p3) by (unfold tx_buf_size; rewrite x8; reflexivity).
  assert (FL : fl p4 = fl p3) by apply x1.
  assert (HS : in_sc_handshake true (reply_id p4) = false) by (rewrite x3, R3; reflexivity).
  assert (FF : fits (tx_buf_size p4) (sc_active (fl p4)) pay) by (rewrite TB, FL; exact F).
  assert (NK : ~ (cmd_id p4 = CMD_KEYSET /\ reply_id p4 = REPLY_ACK)) by (intros [_ X]; rewrite x3, R3 in X; discriminate).
  destruct (dev_says e c p4 (Some fx) pay ob x10 (proj1 (proj2 CT)) TX (line_reply_p _ _ _ x1 L3) Qc HS ltac:(rewrite x2, RB; exact RC) NK FF NB) as (q & w & RP & Qq & RQ & G).
  { cbn [with_file]. rewrite <- file_after. destruct (after_file p4) as [a b]. apply BS; [congruence|congruence|]. apply (room_reply p4 pay HS FF). }
  assert (RF : pd_refresh e p = Ok (q, (oc ++ ob) ++ [OTx w])).
  { rewrite (dev_hears e p d p1 S TK), DC, bind_Ok. rewrite PF, RP, <- app_assoc. reflexivity. }
  exists q, w. split; [exact RF|]. split; [exact Qq|]. cbn [with_file] in RQ.
  split. { rewrite RQ. exact (time_req _ _ BF). }
  split; [|exact G]. exact (do_inv (Refresh e) p q _ CT I RF).
Qed.

(* the panel's end *)
Lemma file_done e c d q z o : phy_state c = PReplyWait -> takes c [] e d q -> decode_response e q d = Ok (z, CNone, o) -> state_update e c = after_phy e (state c) (done e z) o.
Proof. intros P T D. rewrite (pan_hears_reply e c d q P T), D, bind_Ok. reflexivity. Qed.
Lemma done_more e z : file (done e z) = file z /\ cmdq (done e z) = cmdq z.
Proof. unfold done. cbv zeta. destruct (sc_active _); split; reflexivity. Qed.
Lemma done_phy e z : phy_state (done e z) = PDone.
Proof. unfold done. cbv zeta. destruct (sc_active _); reflexivity. Qed.
Lemma reset_same y : state (state_reset false y) = state y /\ rq_restart (state_reset false y) = rq_restart y /\ rq_offline (state_reset false y) = rq_offline y /\
  rq_event (state_reset false y) = rq_event y /\ file (state_reset false y) = file y /\ cmdq (state_reset false y) = cmdq y /\ fl (state_reset false y) = fl y.
Proof. repeat split; reflexivity. Qed.
Lemma file_end e z ob : state z = SOnline -> reply_id z = 122 -> cmd_id z = 124 -> rq_restart z = false -> rq_offline z = false -> sc_active (fl z) = true \/ sc_is_capable z = false ->
  exists q o, after_phy e SOnline (done e z) ob = Ok (q, CYield, o) /\ kept z q /\ state q = SOnline /\ rq_offline q = false /\ file q = file z /\ cmdq q = cmdq z /\ fl q = fl z.
Proof.
  intros S R C RR RO SC. destruct (done_fields e z) as (f1 & f2 & f3 & f4 & f5 & f6 & f7 & f8 & f9). destruct (done_more e z) as [f10 f11]. pose proof (done_kept e z) as K.
  unfold after_phy. rewrite (done_phy e z).
  generalize dependent (done e z). intros y f1 f2 f3 f4 f5 f6 f7 f8 f9 f10 f11 K.
  unfold state_check_reply. rewrite f2, S. cbv iota. unfold check_online_response. rewrite f3, f4, C, R.
  change (122 =? REPLY_ACK) with false. change ((122 =? REPLY_NAK) || (122 =? REPLY_INVALID)) with false. change (124 =? CMD_POLL) with false. cbv iota. change (expected_reply 124 122) with true. rewrite bind_Ok.
  destruct (reset_same y) as (r1 & r2 & r3 & r4 & r5 & r6 & r7).
  generalize dependent (state_reset false y). intros x K r1 r2 r3 r4 r5 r6 r7.
  unfold finish_update, next_ok_state. rewrite r1, f2, S. cbv iota. rewrite bind_Ok.
  assert (NR : sc_should_retry e x = false).
  { unfold sc_should_retry, sc_is_capable in *. rewrite r7, f1. destruct SC as [-> | ->]; [rewrite andb_false_r; reflexivity|reflexivity]. }
  rewrite NR. unfold do_requests. rewrite r1, f2, S. cbn [st_eqb orb]. rewrite r2, f5, RR, r3, f6, RO.
  destruct (rq_event x) eqn:E.
  - change (state_change e (set_rq_event false x) SOnline) with (set_state SOnline (set_rq_event false x), notify_pd_status e (set_rq_event false x) true). cbn [st_eqb].
    eexists _, _. split; [reflexivity|]. split; [apply kept_ev; exact K|].
    change (state x = SOnline /\ rq_offline x = false /\ file x = file z /\ cmdq x = cmdq z /\ fl x = fl z). repeat split; congruence.
  - cbn [st_eqb]. eexists _, _. split; [reflexivity|]. split; [exact K|]. repeat split; congruence.
Qed.

(* --- the chunk --- *)
(* the panel's record in the middle of a transfer *)
Definition going (f : filest) (id size i : Z) : Prop :=
  f_state f = FInprog /\ f_id f = id /\ f_size f = size /\ f_off f = i /\ f_err f = 0 /\ f_cancel f = false /\ f_wait f = 0 /\ Z.testbit (f_flags f) 26 = false.
Lemma get_file e c f id size i : state c = SOnline -> cmdq c = [] -> file c = Some f -> going f id size i -> state_get_cmd e c = Ok (c, 124, []).
Proof.
  intros S Q F (g1 & g2 & g3 & g4 & g5 & g6 & g7 & g8). unfold state_get_cmd, get_online_command, file_tx_get_command. rewrite S, Q, F, g1, g5, g6, g7.
  change ((0 >? FILE_ERROR_RETRY_MAX) || false) with false. change (negb (0 =? 0)) with false. cbn [andb]. change FB_POLL with 26. rewrite g8. reflexivity.
Qed.
Definition chunk (id size i : Z) (d : list Z) : list Z :=
  [id mod 256; size mod 256; size / 256 mod 256; size / 65536 mod 256; size / 16777216 mod 256;
   i mod 256; i / 256 mod 256; i / 65536 mod 256; i / 16777216 mod 256; zlen d mod 256; zlen d / 256 mod 256] ++ d.
Lemma built_file e f id size i m d x smb : 60 <= m -> going f id size i -> e_fread e (m - 27) i = Some d -> 1 <= zlen d <= m - 27 -> cmd_id x = 124 -> file x = Some f ->
  build_cmd_switch e x smb m = Ok (set_file (Some (ff_set_f_len (zlen d) f)) x, Some (124 :: chunk id size i d), None, [OFRead (m - 27) i]).
Proof.
  intros M (g1 & g2 & g3 & g4 & _) R K C F. unfold build_cmd_switch. rewrite C. cbn [Z.eqb Pos.eqb CMD_POLL CMD_LSTAT CMD_ISTAT CMD_OSTAT CMD_RSTAT CMD_ID CMD_CAP CMD_ACURXSIZE CMD_KEEPACTIVE CMD_ABORT CMD_FILETRANSFER orb].
  unfold file_tx_build. rewrite F, g1. change FT_HDR with 11. replace (m <=? 11) with false by lia. replace (m - 11 - 16) with (m - 27) by lia. rewrite g4, R.
  replace (zlen d >? m - 27) with false by lia. replace (zlen d =? 0) with false by lia. rewrite bind_Ok. unfold file_tx_header, chunk, byte0, byte1, byte2, byte3. cbn [ff_set_f_len f_id f_size f_off Types.f_len]. rewrite g2, g3, g4. reflexivity.
Qed.

(* the device's record after the chunk is written *)
Definition written (g : filest) (id size : Z) (d : list Z) : filest :=
  match f_state g with
  | FIdle | FDone => mkFile 0 id FInprog (zlen d) size 0 0 false 0 0
  | _ => ff_set_f_len (zlen d) g
  end.
Definition opened (p : pd) (g : filest) (id size : Z) : list out :=
  match f_state g with
  | FIdle | FDone => (if has_cb p then [OCmd (CFileTx id (f_flags g))] else []) ++ [OFOpen id size]
  | _ => []
  end.
Lemma chunk_len id size i d : zlen (chunk id size i d) = 11 + zlen d.
Proof. unfold chunk. cbn [app]. rewrite !zlen_cons. lia. Qed.
Lemma hear_chunk e p g id size i d : stores e -> file p = Some g -> f_state g <> FKeepAlive -> 0 <= id < 256 -> 0 < size < 2 ^ 31 -> 0 <= i < 2 ^ 31 -> 1 <= zlen d < 65536 ->
  file_tx_decode e p (chunk id size i d) = Ok (set_file (Some (written g id size d)) p, true, opened p g id size ++ [OFWrite d i]).
Proof.
  intros (S1 & S2 & S3 & S4) F NK I1 I2 I3 D. unfold file_tx_decode. rewrite F, chunk_len. change FT_HDR with 11. replace (11 + zlen d <=? 11) with false by lia.
  cbv zeta. unfold getb. change (Z.to_nat 0) with 0%nat. change (Z.to_nat 1) with 1%nat. change (Z.to_nat 2) with 2%nat. change (Z.to_nat 3) with 3%nat. change (Z.to_nat 4) with 4%nat. change (Z.to_nat 5) with 5%nat.
  change (Z.to_nat 6) with 6%nat. change (Z.to_nat 7) with 7%nat. change (Z.to_nat 8) with 8%nat. change (Z.to_nat 9) with 9%nat. change (Z.to_nat 10) with 10%nat.
  change (from (chunk id size i d) 11) with d. unfold chunk. cbn [app nth]. rewrite !wire32, wire16. rewrite !(Z.mod_small _ (2 ^ 32)) by lia. rewrite (Z.mod_small _ (2 ^ 16)) by lia. rewrite (Z.mod_small id) by lia.
  replace (zlen d + 11 =? 11 + zlen d) with true by lia. cbn [negb].
  assert (W : forall f1 o, in_progress f1 = true -> (if negb (in_progress f1) then Ok (set_file (Some f1) p, false, o) else
     if negb (e_fwrite e d i =? zlen d) then Ok (set_file (Some (ff_set_f_err (f_err (ff_set_f_len (e_fwrite e d i) f1) + 1) (ff_set_f_len (e_fwrite e d i) f1))) p, false, o ++ [OFWrite d i])
     else Ok (set_file (Some (ff_set_f_len (e_fwrite e d i) f1)) p, true, o ++ [OFWrite d i])) = Ok (set_file (Some (ff_set_f_len (zlen d) f1)) p, true, o ++ [OFWrite d i])).
  { intros f1 o X. rewrite X, S3, Z.eqb_refl. reflexivity. }
  unfold file_rx_open, written, opened. specialize (S1 id (f_flags g)). specialize (S2 id size).
  destruct (f_state g) eqn:SG; [| | |congruence].
  - destruct (has_cb p).
    + cbn [andb]. replace (fst (e_cb e 0 (CFileTx id (f_flags g))) <? 0) with false by lia. replace (fst (e_fopen e id size) <? 0) with false by lia. rewrite W by reflexivity. reflexivity.
    + cbn [andb]. replace (fst (e_fopen e id size) <? 0) with false by lia. rewrite W by reflexivity. reflexivity.
  - rewrite W by (unfold in_progress; rewrite SG; reflexivity). reflexivity.
  - destruct (has_cb p).
    + cbn [andb]. replace (fst (e_cb e 0 (CFileTx id (f_flags g))) <? 0) with false by lia. replace (fst (e_fopen e id size) <? 0) with false by lia. rewrite W by reflexivity. reflexivity.
    + cbn [andb]. replace (fst (e_fopen e id size) <? 0) with false by lia. rewrite W by reflexivity. reflexivity.
Qed.
Lemma hear_file e p g id size i d : stores e -> file p = Some g -> f_state g <> FKeepAlive -> 0 <= id < 256 -> 0 < size < 2 ^ 31 -> 0 <= i < 2 ^ 31 -> 1 <= zlen d < 65536 ->
  enforce (fl p) = false \/ sc_active (fl p) = true ->
  decode_command e p (124 :: chunk id size i d) = Ok (set_reply_id 122 (set_file (Some (written g id size d)) (set_cmd_id 124 (set_reply_id 0 p))), RNone, opened p g id size ++ [OFWrite d i]).
Proof.
  intros S F NK I1 I2 I3 D E. unfold decode_command. cbv zeta. change (getb (124 :: chunk id size i d) 0) with 124. change (from (124 :: chunk id size i d) 1) with (chunk id size i d).
  change (fl (set_cmd_id 124 (set_reply_id 0 p))) with (fl p).
  replace (enforce (fl p) && negb (sc_active (fl p))) with false by (destruct E as [-> | ->]; [reflexivity|rewrite andb_false_r; reflexivity]). cbn [andb].
  set (p1 := set_cmd_id 124 (set_reply_id 0 p)).
  change (decode_switch e p1 124 (chunk id size i d)) with (Some (do r <- file_tx_decode e p1 (chunk id size i d) ;
    match r with
    | (p1, true, o) => Ok (set_reply_id REPLY_FTSTAT p1, RNone, o)
    | (p1, false, o) => Ok (p1, RWait, o)
    end)).
  rewrite (hear_chunk e p1 g id size i d S F NK I1 I2 I3 D), bind_Ok. reflexivity.
Qed.

(* the answer *)
Definition answered (g : filest) (id size i : Z) (d : list Z) : filest :=
  ff_set_f_state (if i + zlen d =? size then FDone else FInprog) (ff_set_f_off (i + zlen d) (ff_set_f_len 0 (written g id size d))).
Lemma written_state g id size d : f_state g <> FKeepAlive -> f_state (written g id size d) = FInprog /\ Types.f_len (written g id size d) = zlen d.
Proof. intros N. unfold written. destruct (f_state g) eqn:E; try (split; reflexivity); [split; [exact E|reflexivity]|congruence]. Qed.
Definition stat (b : bool) : list Z := [122; 1; 0; 0; if b then 1 else 0; 0; 0; 0].
Lemma stat_built e y smb m g id size i d : reply_id y = 122 -> file y = Some (written g id size d) -> 60 <= m -> 0 <= e_fclose e -> f_state g <> FKeepAlive ->
  f_off (written g id size d) = i -> f_size (written g id size d) = size -> 1 <= zlen d -> 0 <= i -> i + zlen d <= size -> size < 2 ^ 31 ->
  build_switch e y smb m = Ok (set_file (Some (answered g id size i d)) y, Some (stat (i + zlen d =? size)), None, if i + zlen d =? size then [OFClose] else []).
Proof.
  intros R F M FC NK O S D I0 L B. destruct (written_state g id size d NK) as [W1 W2]. unfold build_switch. rewrite R. 
  match goal with |- ?a = _ => let b := eval cbv [Z.eqb Pos.eqb REPLY_ACK REPLY_PDID REPLY_PDCAP REPLY_OSTATR REPLY_ISTATR REPLY_LSTATR REPLY_RSTATR REPLY_KEYPAD REPLY_RAW REPLY_COM REPLY_NAK REPLY_MFGREP REPLY_FTSTAT orb] in a in change (b = Ok (set_file (Some (answered g id size i d)) y, Some (stat (i + zlen d =? size)), None, if i + zlen d =? size then [OFClose] else [])) end.
  unfold file_stat_build. rewrite F. unfold in_progress. rewrite W1. cbn [negb]. change FT_STAT with 7. replace (m <? 7) with false by lia. rewrite W2. replace (zlen d >? 0) with true by lia. rewrite O, S.
  unfold u32. rewrite Z.mod_small by lia. cbv zeta. replace (i + zlen d >? size) with false by lia. unfold answered.
  destruct (i + zlen d =? size).
  - replace (e_fclose e <? 0) with false by lia. reflexivity.
  - rewrite bind_Ok. cbn [stat]. unfold stat. do 3 f_equal. f_equal. f_equal. f_equal. destruct (written g id size d). cbn in *. rewrite W1. reflexivity.
Qed.

Lemma bits_off fl n v : 0 <= n -> n <> 26 -> Z.testbit (put_bit n v fl) 26 = Z.testbit fl 26.
Proof. intros N H. unfold put_bit. destruct v; [rewrite Z.setbit_neq|rewrite Z.clearbit_neq]; auto. Qed.
Lemma bit_off fl : Z.testbit (put_bit 26 false fl) 26 = false.
Proof. unfold put_bit. apply Z.clearbit_eq. Qed.
Lemma stat_read e q f id size i k : file q = Some (ff_set_f_len k f) -> going f id size i -> 1 <= k -> 0 <= i -> i + k <= size -> size < 2 ^ 31 ->
  exists f2 o, decode_response e q (stat (i + k =? size)) = Ok (set_file (Some f2) (set_reply_id 122 q), CNone, o) /\
  if i + k =? size then f_state f2 = FDone /\ f_size f2 = size /\ f_off f2 = i + k else going f2 id size (i + k).
Proof.
  intros F (g1 & g2 & g3 & g4 & g5 & g6 & g7 & g8) K I L B. 
  assert (D : decode_response e q (stat (i + k =? size)) = do x <- file_stat_decode e (set_reply_id 122 q) (from (stat (i + k =? size)) 1) ;
    match x with
    | (p1, true, o) => Ok (p1, CNone, o)
    | (p1, false, o) => Ok (p1, CGeneric, o)
    end) by reflexivity.
  rewrite D. clear D. unfold file_stat_decode. change (file (set_reply_id 122 q)) with (file q). rewrite F. unfold in_progress. cbn [ff_set_f_len f_state f_off Types.f_len f_size f_flags f_id f_cancel]. rewrite g1, g3, g4. cbn [negb].
  change (from (stat (i + k =? size)) 1) with [1; 0; 0; if i + k =? size then 1 else 0; 0; 0; 0].
  change (zlen [1; 0; 0; if i + k =? size then 1 else 0; 0; 0; 0] <? FT_STAT) with false. change (zlen [1; 0; 0; if i + k =? size then 1 else 0; 0; 0; 0] =? FT_STAT) with true. cbn [negb].
  unfold u32. rewrite Z.mod_small by lia. replace (i + k >? size) with false by lia. cbv zeta.
  unfold getb. change (Z.to_nat 0) with 0%nat. change (Z.to_nat 1) with 1%nat. change (Z.to_nat 2) with 2%nat. change (Z.to_nat 3) with 3%nat. change (Z.to_nat 4) with 4%nat. cbn [nth].
  change (Z.testbit 1 0) with true. change (Z.testbit 1 1) with false. change (Z.testbit 1 2) with false. cbn [negb]. change (le16 0 0) with 0. change FB_POLL with 26. rewrite g6, g2.
  destruct (i + k =? size) eqn:E.
  - cbn [negb]. rewrite andb_true_r. change (le16 1 0 =? 3) with false. change (le16 1 0 =? 2) with false. change (le16 1 0 =? 1) with true. cbv iota. rewrite bind_Ok.
    eexists _, _. split; [reflexivity|]. repeat split; reflexivity.
  - cbn [negb]. rewrite bind_Ok. eexists _, _. split; [reflexivity|]. unfold going. cbn [f_state f_id f_size f_off f_err f_cancel f_wait f_flags]. rewrite bit_off. repeat split; reflexivity.
Qed.

(* --- a round --- *)
Record mid (data : list Z) (id : Z) (w : list Z) (c p : pd) : Prop := {
  md_inv : cpi c /\ pd_inv p;
  md_on : state c = SOnline /\ cmdq c = [] /\ rq_offline c = false /\ phy_state c = PIdle;
  md_line : line c p;
  md_quiet : quiet c /\ quiet p;
  md_tx : 69 <= tx_buf_size c /\ 69 <= tx_buf_size p;
  md_sec : (sc_active (fl c) = true \/ sc_is_capable c = false) /\ (enforce (fl p) = false \/ sc_active (fl p) = true);
  md_size : 0 <= id < 256 /\ 0 < zlen data < 2 ^ 31;
  md_fits : chunk_fits c;
  md_panel : exists f, file c = Some f /\ going f id (zlen data) (zlen w);
  md_dev : exists g, file p = Some g /\ (w = [] /\ (f_state g = FIdle \/ f_state g = FDone) \/ f_state g = FInprog /\ f_size g = zlen data /\ f_off g = zlen w);
  md_sofar : exists rest, data = w ++ rest /\ 1 <= zlen rest
}.

Lemma chunk_bytes id size i d : bytes d -> bytes (124 :: chunk id size i d).
Proof. intros B. unfold chunk. cbn [app]. repeat (constructor; [unfold byte; lia|]). exact B. Qed.
Lemma chunk_ok_fits c id size i d : chunk_fits c -> bytes d -> 1 <= zlen d <= chunk_max c -> 69 <= tx_buf_size c -> fits (tx_buf_size c) (sc_active (fl c)) (124 :: chunk id size i d).
Proof.
  intros F B D T. split; [apply chunk_bytes; exact B|]. rewrite zlen_cons, chunk_len. pose proof (tx_size c). split; [lia|]. split; [lia|].
  unfold chunk_fits, chunk_max in *. destruct (sc_active (fl c)); [|lia]. specialize (F eq_refl). replace (1 + (11 + zlen d) >? 1) with true by lia.
  assert ((1 + (11 + zlen d) + 15) / 16 <= (tx_buf_size c - 35 + 12 + 15) / 16) by (apply Z.div_le_mono; lia). lia.
Qed.
Lemma stat_fits n act b : 69 <= n <= 256 -> fits n act (stat b).
Proof.
  intros N. split; [unfold stat; repeat (constructor; [unfold byte; destruct b; lia|]); constructor|]. change (zlen (stat b)) with 8. split; [lia|]. split; [exact N|].
  destruct act; [change (8 >? 1) with true; cbv iota; lia|lia].
Qed.
Lemma opened_writes p g id size : writes (opened p g id size) = [].
Proof. unfold opened. destruct (f_state g), (has_cb p); reflexivity. Qed.

Lemma file_round data id : forall w c p, mid data id w c p ->
  forall e1 e2, env_typed e1 -> env_typed e2 -> 256 <= e_tx e2 -> reads data e2 ->
  moves (cp_do (Update e1) c) (fun c1 => tells (cp_do (Update e2) c1) (fun c2 _ t1 =>
  forall e3, hears e3 t1 -> in_session e3 p -> stores e3 -> tells (pd_do (Refresh e3) p) (fun p1 o t2 =>
  exists d, d <> [] /\ writes o = [(d, zlen w)] /\
  forall e4, hears e4 t2 -> exists c3 o3, cp_do (Update e4) c2 = Ok (c3, o3) /\
    (w ++ d = data /\ (xfer c3 = Some FDone /\ progress c3 (zlen data) (zlen data)) /\ (xfer p1 = Some FDone /\ progress p1 (zlen data) (zlen data)) \/ mid data id (w ++ d) c3 p1)))).
Proof.
  intros w c p [(I & Ip) (St & CQ & RO & Ph) L (Qc & Qp) (N1 & N2) (SC & EN) (ID & SZ) CF (f & F & G) (g & Fp & DV) (rest & DE & RL)] e1 e2 T1 T2 X2 RD.
  assert (W0 : 0 <= zlen w) by apply zlen_nonneg.
  assert (ZD : zlen data = zlen w + zlen rest) by (rewrite DE; unfold zlen; rewrite app_length; lia).
  pose proof (tx_size c) as TS.
  assert (CM : 0 < chunk_max c <= 256) by (unfold chunk_max; destruct (sc_active (fl c)); lia).
  set (m := tx_buf_size c - (if sc_active (fl c) then 8 else 6)).
  assert (M : m - 27 = chunk_max c /\ 60 <= m) by (unfold m, chunk_max; destruct (sc_active (fl c)); lia). destruct M as [M1 M2].
  destruct (RD (m - 27) (zlen w)) as (k & K1 & K2 & RR); [lia|lia|].
  set (d := firstn (Z.to_nat k) (skipn (Z.to_nat (zlen w)) data)) in *.
  assert (SK : skipn (Z.to_nat (zlen w)) data = rest).
  { rewrite DE. unfold zlen. rewrite Nat2Z.id, skipn_app, skipn_all, Nat.sub_diag. reflexivity. }
  assert (D : d = firstn (Z.to_nat k) rest) by (unfold d; rewrite SK; reflexivity).
  assert (DL : zlen d = k) by (rewrite D; apply firstn_zlen; lia). clearbody d.
  assert (BD : bytes d) by (destruct T2 as (_ & _ & T2); exact (T2 _ _ _ RR)).
  assert (FT : fits (tx_buf_size c) (sc_active (fl c)) (124 :: chunk id (zlen data) (zlen w) d)) by (apply chunk_ok_fits; [exact CF|exact BD|lia|exact N1]).
  destruct (ask_file e1 e2 c p (Some (ff_set_f_len (zlen d) f)) (124 :: chunk id (zlen data) (zlen w) d) [OFRead (m - 27) (zlen w)] I T1 T2 X2 Ph (get_file e1 c f id (zlen data) (zlen w) St CQ F G) L Qc Qp FT)
    as (c1 & c2 & t1 & U1 & U2 & I2 & Q2 & P2 & R2 & A2 & H2).
  { intros x smb Cx Fx. rewrite F in Fx. fold m. exact (built_file e2 f id (zlen data) (zlen w) m d x smb M2 G RR ltac:(lia) Cx Fx). }
  exists c1. split; [unfold cp_do; rewrite U1; reflexivity|]. exists c2, [OFRead (m - 27) (zlen w)], t1. split; [unfold cp_do; rewrite U2; reflexivity|].
  intros e3 H3 SS ST. destruct (H2 e3 H3) as (p0 & TK & LR & LC & RX & RB & A0).
  assert (V1 : file p0 = Some g) by exact (eq_trans (f_equal (fun x => file x) LC) Fp). assert (V2 : enforce (fl p0) = enforce (fl p)) by exact (f_equal (fun x => enforce (fl x)) LC).
  assert (V3 : peer_rx p0 = peer_rx p) by exact (f_equal (fun x => peer_rx x) LC).
  assert (NK : f_state g <> FKeepAlive) by (destruct DV as [(_ & [X|X])|(X & _)]; rewrite X; discriminate).
  assert (EN0 : enforce (fl p0) = false \/ sc_active (fl p0) = true) by (rewrite V2, A0; exact EN).
  pose proof (hear_file e3 p0 g id (zlen data) (zlen w) d ST V1 NK ID SZ ltac:(lia) ltac:(lia) EN0) as DC.
  set (p3 := set_reply_id 122 (set_file (Some (written g id (zlen data) d)) (set_cmd_id 124 (set_reply_id 0 p0)))) in *.
  assert (Y : same_link p0 p3 /\ rb p3 = rb p0 /\ reply_id p3 = 122 /\ file p3 = Some (written g id (zlen data) d) /\ peer_rx p3 = peer_rx p0 /\ fl p3 = fl p0 /\ enforce (fl p3) = enforce (fl p0)) by (repeat split; reflexivity).
  clearbody p3. destruct Y as (y1 & y2 & y3 & y4 & y5 & y6 & y7).
  assert (WO : f_off (written g id (zlen data) d) = zlen w /\ f_size (written g id (zlen data) d) = zlen data).
  { unfold written. destruct DV as [(-> & [X|X])|(X & X2' & X3)]; rewrite X; [split; reflexivity|split; reflexivity|]. split; [exact X3|exact X2']. }
  destruct WO as [WO WS].
  assert (FP : fits (tx_buf_size p3) (sc_active (fl p3)) (stat (zlen w + zlen d =? zlen data))) by (apply stat_fits; pose proof (tx_size p); unfold tx_buf_size in *; rewrite y5, V3; lia).
  destruct (tell_file e3 c2 p p0 _ p3 _ (Some (answered g id (zlen data) (zlen w) d)) (stat (zlen w + zlen d =? zlen data)) (if zlen w + zlen d =? zlen data then [OFClose] else []) t1
    Ip H3 SS TK LR Q2 RB (chunk_bytes _ _ _ _ BD) DC y1 y2 y3 FP ltac:(discriminate)) as (p1 & t2 & RF & Qp1 & TR & Ip1 & G2).
  { intros y smb m0 Ry Fy Mm. rewrite y4 in Fy. exact (stat_built e3 y smb m0 g id (zlen data) (zlen w) d Ry Fy Mm (proj2 (proj2 (proj2 ST))) NK WO WS ltac:(lia) W0 ltac:(lia) (proj2 SZ)). }
  assert (FL1 : file p1 = Some (answered g id (zlen data) (zlen w) d)) by exact (f_equal (fun x => file x) TR).
  assert (PX1 : peer_rx p1 = peer_rx p3) by exact (f_equal (fun x => peer_rx x) TR). assert (EF1 : enforce (fl p1) = enforce (fl p3)) by exact (f_equal (fun x => enforce (fl x)) TR).
  exists p1, ((opened p0 g id (zlen data) ++ [OFWrite d (zlen w)]) ++ (if zlen w + zlen d =? zlen data then [OFClose] else [])), t2. split; [exact RF|].
  exists d. split; [intros X; rewrite X in DL; change (zlen (@nil Z)) with 0 in DL; lia|]. split.
  { unfold writes. rewrite !flat_map_app. fold (writes (opened p0 g id (zlen data))). rewrite opened_writes. destruct (zlen w + zlen d =? zlen data); reflexivity. }
  intros e4 H4. destruct (G2 e4 H4) as (c0 & TC & LK & RX0 & RB0 & LN & AC).
  assert (Z1 : file c2 = Some (ff_set_f_len (zlen d) f)) by exact (f_equal (fun x => file x) R2). assert (Z2 : file c0 = file c2) by exact (f_equal (fun x => file x) LK).
  rewrite <- Z2 in Z1.
  destruct (stat_read e4 c0 f id (zlen data) (zlen w) (zlen d) Z1 G ltac:(lia) W0 ltac:(lia) (proj2 SZ)) as (f2 & o3 & DR & FE).
  pose proof (file_done e4 c2 _ c0 _ _ P2 TC DR) as PD.
  assert (S2 : state c2 = SOnline) by exact (eq_trans (f_equal (fun x => state x) R2) St). assert (S0 : state c0 = state c2) by exact (f_equal (fun x => state x) LK).
  assert (C2 : cmd_id c2 = 124) by exact (f_equal (fun x => cmd_id x) R2). assert (C0 : cmd_id c0 = cmd_id c2) by exact (f_equal (fun x => cmd_id x) LK).
  assert (O2 : rq_offline c2 = rq_offline c) by exact (f_equal (fun x => rq_offline x) R2). assert (O0 : rq_offline c0 = rq_offline c2) by exact (f_equal (fun x => rq_offline x) LK).
  assert (RR0 : rq_restart c0 = rq_restart c2) by exact (f_equal (fun x => rq_restart x) LK).
  assert (CC2 : sc_is_capable c2 = sc_is_capable c) by exact (f_equal (fun x => sc_is_capable x) R2). assert (CC0 : sc_is_capable c0 = sc_is_capable c2) by exact (f_equal (fun x => sc_is_capable x) LK).
  assert (CQ2 : cmdq c2 = cmdq c) by exact (f_equal (fun x => cmdq x) R2). assert (CQ0 : cmdq c0 = cmdq c2) by exact (f_equal (fun x => cmdq x) LK).
  assert (PX2 : peer_rx c2 = peer_rx c) by exact (f_equal (fun x => peer_rx x) R2). assert (PX0 : peer_rx c0 = peer_rx c2) by exact (f_equal (fun x => peer_rx x) LK).
  rewrite S2 in PD.
  assert (ZZ : forall x fx, let z := set_file fx (set_reply_id 122 x) in state z = state x /\ reply_id z = 122 /\ cmd_id z = cmd_id x /\ rq_restart z = rq_restart x /\ rq_offline z = rq_offline x /\
    fl z = fl x /\ file z = fx /\ cmdq z = cmdq x /\ peer_rx z = peer_rx x /\ rx_base z = rx_base x /\ rb z = rb x /\ sc z = sc x /\ seqn z = seqn x /\ address z = address x) by (intros x fx; cbv zeta; repeat split; reflexivity).
  destruct (ZZ c0 (Some f2)) as (z1 & z2 & z3 & z4 & z5 & z6 & z7 & z8 & z9 & z10 & z11 & z12 & z13 & z14). clear ZZ.
  set (z := set_file (Some f2) (set_reply_id 122 c0)) in *. clearbody z.
  assert (SCz : sc_active (fl z) = true \/ sc_is_capable z = false).
  { unfold sc_is_capable in *. rewrite z6, AC, A2. destruct SC as [SC|SC]; [left; exact SC|right]. rewrite CC0, CC2. exact SC. }
  destruct (file_end e4 z o3 ltac:(congruence) z2 ltac:(congruence)) as (c3 & o & AE & K3 & x1 & x2 & x3 & x4 & x5); [rewrite z4, RR0; exact (ci_rq c2 I2)|congruence|exact SCz|].
  rewrite AE in PD. assert (D4 : cp_do (Update e4) c2 = Ok (c3, o)) by (unfold cp_do; rewrite PD; reflexivity).
  exists c3, o. split; [exact D4|].
  destruct (zlen w + zlen d =? zlen data) eqn:EQ.
  - left. split.
    + rewrite DE, D. f_equal. assert (X : k = zlen rest) by lia. rewrite X. unfold zlen. rewrite Nat2Z.id. apply firstn_all.
    + unfold xfer, progress, get_file_tx_status. destruct FE as (FE1 & FE2 & FE3). rewrite x3, z7, FL1, FE1, FE2, FE3. split; [split; [reflexivity|do 3 f_equal; lia]|].
      unfold answered. rewrite EQ. cbn [ff_set_f_state ff_set_f_off ff_set_f_len f_state f_size f_off]. rewrite WS. split; [reflexivity|do 3 f_equal; lia].
  - right. assert (ACT : sc_active (fl c3) = sc_active (fl c)) by (rewrite x5, z6, AC; exact A2).
    assert (PX3 : peer_rx c3 = peer_rx c) by (rewrite (kp_peer z c3 K3); congruence).
    assert (L3 : line c3 p1).
    { apply (kept_line z c3 p1 K3). apply (line_like (state_reset false c0) z p1); [rewrite z13; reflexivity|rewrite z14; reflexivity|rewrite z6; reflexivity|rewrite z6; reflexivity|rewrite z6; reflexivity|rewrite z12; reflexivity|exact LN]. }
    assert (SAp : sc_active (fl p1) = sc_active (fl c3)).
    { assert (LL := L3). destruct LL as [_ [(A & B & _)|Y]]; [congruence|destruct (is_act _ _ Y); congruence]. }
    assert (SA0 : sc_active (fl c) = sc_active (fl p)) by (destruct L as [_ [(A & B & _)|Y]]; [congruence|destruct (is_act c p Y); congruence]).
    constructor.
    + split; [exact (cp_do_inv (Update e4) c2 c3 o (proj1 H4) I2 D4)|exact Ip1].
    + split; [exact x1|]. split; [congruence|]. split; [exact x2|exact (kp_phy z c3 K3)].
    + exact L3.
    + split; [|exact Qp1]. apply (kept_quiet z c3 K3); [rewrite z10; exact RX0|rewrite z11; exact RB0].
    + unfold tx_buf_size in *. rewrite PX3, PX1, y5, V3. split; [exact N1|exact N2].
    + split.
      * unfold sc_is_capable in *. rewrite ACT, x5, z6. destruct SC as [SC|SC]; [left; exact SC|right]. rewrite CC0, CC2. exact SC.
      * rewrite EF1, y7, V2, SAp, ACT, SA0. exact EN.
    + exact (conj ID SZ).
    + unfold chunk_fits, chunk_max, tx_buf_size in *. rewrite ACT, PX3. exact CF.
    + exists f2. split; [congruence|]. replace (zlen (w ++ d)) with (zlen w + zlen d) by (unfold zlen; rewrite app_length; lia). exact FE.
    + exists (answered g id (zlen data) (zlen w) d). split; [exact FL1|]. right. unfold answered. rewrite EQ. split; [reflexivity|]. split; [exact WS|]. unfold zlen. rewrite app_length. cbn [ff_set_f_state ff_set_f_off f_off]. lia.
    + exists (skipn (Z.to_nat k) rest). split; [rewrite DE, <- app_assoc; f_equal; rewrite D; symmetry; apply firstn_skipn|]. unfold zlen in *. rewrite skipn_length. lia.
Qed.

Lemma mid_ends data id : forall n w c p, (length data - length w <= n)%nat -> mid data id w c p -> transfers data w c p.
Proof.
  induction n as [|n IH]; intros w c p N MD.
  - exfalso. destruct (md_sofar _ _ _ _ _ MD) as (rest & E & R). rewrite E, app_length in N. unfold zlen in R. lia.
  - destruct (md_sofar _ _ _ _ _ MD) as (rest & E & R). destruct (md_panel _ _ _ _ _ MD) as (f & F & G). destruct (md_dev _ _ _ _ _ MD) as (g & Fp & DV).
    apply tr_more.
    + unfold xfer. rewrite F, (proj1 G). reflexivity.
    + destruct DV as [(-> & _)|(X & X1 & X2)]; [right; reflexivity|left; unfold xfer, progress, get_file_tx_status; rewrite Fp, X, X1, X2; split; reflexivity].
    + destruct G as (G1 & _ & G3 & G4 & _). unfold progress, get_file_tx_status. rewrite F, G1, G3, G4. reflexivity.
    + rewrite E. unfold zlen in *. rewrite app_length. lia.
    + intros e1 e2 T1 T2 X2 RD. destruct (file_round data id w c p MD e1 e2 T1 T2 X2 RD) as (c1 & U1 & c2 & o1 & t1 & U2 & G1).
      exists c1. split; [exact U1|]. exists c2, o1, t1. split; [exact U2|]. intros e3 H3 SS ST. destruct (G1 e3 H3 SS ST) as (p1 & o2 & t2 & V1 & d & DN & WR & G2).
      exists p1, o2, t2. split; [exact V1|]. exists d. split; [exact DN|]. split; [exact WR|]. intros e4 H4. destruct (G2 e4 H4) as (c3 & o3 & U3 & [(Y1 & (Y2 & Y4) & (Y3 & Y5))|Y]).
      * exists c3, o3. split; [exact U3|]. rewrite Y1. apply tr_done; assumption.
      * exists c3, o3. split; [exact U3|]. apply IH; [|exact Y]. destruct d; [contradiction|]. rewrite app_length. cbn [length]. rewrite E, app_length in N |- *. unfold zlen in R. lia.
Qed.
