(** Panel and device: a new key. *)
From Verif Require Import Base ListLemmas Crc SpecCrc CrcProofs CrcBurst Aes AesProofs Rb RbProofs
  Types Sc ScProofs Phy PhyCheck File Pd Cp PdRun SpecRx SpecFrame SpecSec SpecSession SpecCmd SpecApp SpecPd SpecLink RxProofs RxFwd PdRx PdCore PhyTx PdTx PdReply
  PdStep PdWire PdFwd PdSec PdApp PdTrace PdHist2 MacProofs WireSec CpCtx SpecCp SpecCpRun CpTx CpRx CpStep CpInv CpEdge CpFacts CpSum CpFwd CpAuth Chunk Trip ChunkRun LinkProofs LinkStep CpSend SpecTalk Hand Shake Line Talk Talk2 Talk3 Talk4 Talk5 Talk6 PdPlain PdRefuse SpecLost Lost Lost2 Run1 Run2 Run3 Boot Boot2 SpecHand SpecRun SpecBoot SpecKey.
From Coq Require Import ZifyBool ZifyNat.
Ltac Zify.zify_post_hook ::= Z.div_mod_to_equations.
Local Opaque aes_ecb_encrypt aes_cbc_encrypt aes_cbc_decrypt mac_of RB_SIZE osdp_mac enc1 osdp_encrypt encrypt_data cap_entries.

(* --- the device --- *)
Definition rekeyed (k : list Z) (p : pd) : pd := state_reset false (sc_deactivate (set_install false (set_use_scbkd false (set_scbk k p)))).
Lemma rekeyed_fields k p : let q := rekeyed k p in
  scbk (sc q) = k /\ use_scbkd (fl q) = false /\ install (fl q) = false /\ sc_active (fl q) = false /\ seqn q = seqn p /\ caps q = caps p /\ peer_rx q = peer_rx p /\ address q = address p /\
  has_cb q = has_cb p /\ evq q = evq p /\ rb q = rb p /\ pbuf q = pbuf p /\ plen q = 0 /\ pblen q = 0.
Proof. repeat split. Qed.

Lemma key_says e c p k : binv p -> bytes (e_rand e) -> 256 <= e_tx e -> line_reply c p -> quiet c -> rb_contents (rb p) = [] -> cmd_id p = 117 -> reply_id p = 64 -> eph p = EphKey k ->
  69 <= tx_buf_size p <= 256 ->
  exists p0 w, reply_phase e p = Ok (rekeyed k p0, [OTx w]) /\ quiet (rekeyed k p0) /\ linkcore p0 = linkcore p /\
  forall h, hears h w -> exists c1, takes c [] h [64] c1 /\ linkcore c1 = linkcore c /\ rx_base c1 /\ rb_contents (rb c1) = [] /\ line (state_reset false c1) (state_reset false p0) /\ sc_active (fl c1) = sc_active (fl c).
Proof.
  intros B BR TX L Qc RC CI RI EP N.
  assert (HS : in_sc_handshake true (reply_id p) = false) by (rewrite RI; reflexivity).
  assert (F : fits (tx_buf_size p) (sc_active (fl p)) [64]) by (apply ack_fits; exact N).
  assert (BS : build_switch e (after_init p) (reply_smb p) (reply_room p) = Ok (after_init p, Some [64], None, [])).
  { apply ack_built; [exact RI|]. apply (room_reply p [64] HS F). }
  pose proof (reply_transmit e p p [64] [] (iv_mode p B) (iv_ty p B) BR N ltac:(discriminate) HS (iv_mode p B) eq_refl eq_refl eq_refl BS) as BT.
  assert (BO : buf_ok (pbuf p)) by (split; apply (iv_rxb p B)).
  destruct (line_rep2 c p e (tx_buf_size p) [64] L Qc BO F ltac:(lia) HS ltac:(discriminate)) as (p0 & m & f & TR & M & B0 & (RB & LC) & PL & G).
  rewrite TR in BT. cbn [with_outs bind app] in BT.
  exists p0, (m ++ f).
  split. { unfold reply_phase. rewrite BT, bind_Ok.
    assert (C0 : cmd_id p0 = 117) by (rewrite <- CI; exact (f_equal (fun z => cmd_id z) LC)).
    assert (R0 : reply_id p0 = 64) by (rewrite <- RI; exact (f_equal (fun z => reply_id z) LC)).
    assert (E0 : eph p0 = EphKey k) by (rewrite <- EP; exact (f_equal (fun z => eph z) LC)).
    rewrite C0, R0, E0. reflexivity. }
  split. { destruct (rekeyed_fields k p0) as (_ & _ & _ & _ & _ & _ & _ & _ & _ & _ & r1 & r2 & r3 & r4). unfold quiet. rewrite r1, r2, r3, r4, RB.
    split; [reflexivity|]. split; [reflexivity|]. split; [exact RC|]. split; [apply (iv_rxb p B)|exact B0]. }
  split; [exact LC|].
  intros h (_ & _ & CK & _ & D). apply (delivers_marked _ m f [] M) in D. exact (G h CK D).
Qed.

(* the command is executed *)
Definition keyed (k : list Z) (p : pd) : pd := set_eph (EphKey k) (set_reply_id 64 (nak 6 (set_cmd_id 117 (set_reply_id 0 p)))).
Lemma key_switch e p key : is_key key -> has_cb p = true -> sc_active (fl p) = true -> cap_sc p = true -> takes_key key e ->
  do_keyset e p (1 :: 16 :: key) = Ok (set_eph (EphKey key) (set_reply_id 64 (nak 6 p)), RNone, [OCmd (CKeyset 1 16 key)]).
Proof.
  intros [L B] HC A CS TK. unfold do_keyset.
  assert (Z18 : zlen (1 :: 16 :: key) = 18) by (unfold zlen; cbn [length]; rewrite L; reflexivity). rewrite Z18.
  change (getb (1 :: 16 :: key) 0) with 1. change (getb (1 :: 16 :: key) 1) with 16. change (from (1 :: 16 :: key) 2) with key. cbn [Z.eqb Pos.eqb negb orb]. cbv zeta.
  change (cap_sc (nak 6 p)) with (cap_sc p). change (fl (nak 6 p)) with (fl p). change (has_cb (nak 6 p)) with (has_cb p). rewrite CS, A, HC. cbn [negb].
  unfold do_callback. unfold takes_key in TK. rewrite TK. change (0 =? 0) with true. cbv iota.
  rewrite (take_ok key 16) by (unfold zlen; lia). cbn [bind]. change (Z.to_nat 16) with 16%nat. rewrite <- L, firstn_all. reflexivity.
Qed.
Lemma key_hear e p key : is_key key -> has_cb p = true -> sc_active (fl p) = true -> cap_sc p = true -> takes_key key e ->
  decode_command e p (cmd_wire (CKeyset 1 16 key)) = Ok (keyed key p, RNone, [OCmd (CKeyset 1 16 key)]).
Proof.
  intros K HC A CS TK.
  assert (F : firstn 16 key = key) by (rewrite <- (proj1 K); apply firstn_all).
  unfold cmd_wire, cmd_data. cbn [cmd_code]. rewrite F. cbn [app].
  unfold decode_command. change (getb (117 :: 1 :: 16 :: key) 0) with 117. change (from (117 :: 1 :: 16 :: key) 1) with (1 :: 16 :: key). cbv zeta.
  change (fl (set_cmd_id 117 (set_reply_id 0 p))) with (fl p). rewrite A, andb_false_r. cbn [andb].
  change (decode_switch e (set_cmd_id 117 (set_reply_id 0 p)) 117 (1 :: 16 :: key)) with (Some (do_keyset e (set_cmd_id 117 (set_reply_id 0 p)) (1 :: 16 :: key))). cbv iota.
  rewrite (key_switch e (set_cmd_id 117 (set_reply_id 0 p)) key K HC A CS TK), bind_Ok. reflexivity.
Qed.

(* what the exchange leaves of the device *)
Record new_dev (key : list Z) (p q : pd) : Prop := {
  nd_quiet : quiet q;
  nd_key : scbk (sc q) = key /\ use_scbkd (fl q) = false /\ install (fl q) = false;
  nd_act : sc_active (fl q) = false;
  nd_caps : caps q = caps p /\ peer_rx q = peer_rx p /\ address q = address p;
  nd_app : has_cb q = has_cb p /\ evq q = evq p
}.
Lemma key_turn e c p p1 key w0 : pd_inv p -> hears e w0 -> in_session e p -> takes p [] e (cmd_wire (CKeyset 1 16 key)) p1 -> linkcore p1 = linkcore p -> line_reply c p1 -> quiet c -> rb_contents (rb p1) = [] ->
  is_key key -> has_cb p = true -> sc_active (fl p1) = true -> cap_sc p = true -> takes_key key e -> 69 <= tx_buf_size p ->
  exists q w, pd_refresh e p = Ok (q, [OCmd (CKeyset 1 16 key); OTx w]) /\ new_dev key p q /\
  forall h, hears h w -> exists c1, takes c [] h [64] c1 /\ linkcore c1 = linkcore c /\ rx_base c1 /\ rb_contents (rb c1) = [] /\
    (sc_active (fl c1) = sc_active (fl c) /\ seqn q = seqn c1 /\ 0 <= seqn c1 <= 3).
Proof.
  intros I H S TK LP L Qc RC K HC A CS AP N. pose proof (hears_env _ _ H) as KO. pose proof H as (_ & CT & _ & TX & _). pose proof (tx_size p) as TS.
  pose proof (takes_inv e p _ p1 KO I TK) as B1.
  assert (V1 : caps p1 = caps p) by exact (f_equal (fun x => caps x) LP). assert (V2 : has_cb p1 = has_cb p) by exact (f_equal (fun x => has_cb x) LP).
  assert (V4 : peer_rx p1 = peer_rx p) by exact (f_equal (fun x => peer_rx x) LP). assert (V5 : evq p1 = evq p) by exact (f_equal (fun x => evq x) LP).
  assert (V6 : address p1 = address p) by exact (f_equal (fun x => address x) LP).
  assert (CS1 : cap_sc p1 = true) by (unfold cap_sc, cap_at in *; rewrite V1; exact CS).
  assert (Bd : bytes (cmd_wire (CKeyset 1 16 key))).
  { apply cmd_wire_bytes. destruct K as [K1 K2]. cbn [cmd_in_range]. split; [reflexivity|]. split; [reflexivity|]. split; [unfold zlen; lia|exact K2]. }
  pose proof (key_hear e p1 key K ltac:(rewrite V2; exact HC) A CS1 AP) as DC.
  destruct (decode_command_inv e p1 _ _ _ _ KO Bd B1 DC) as [B3 _].
  set (p3 := keyed key p1) in *.
  assert (X : same_link p1 p3 /\ rb p3 = rb p1 /\ reply_id p3 = 64 /\ cmd_id p3 = 117 /\ eph p3 = EphKey key /\ caps p3 = caps p1 /\ peer_rx p3 = peer_rx p1 /\ has_cb p3 = has_cb p1 /\ evq p3 = evq p1) by (repeat split).
  destruct X as (x1 & x2 & x3 & x4 & x5 & x6 & x8 & x9 & x10). clearbody p3.
  destruct (same_bumped e p3) as (y1 & y2 & y3 & y4 & y5 & y6 & y7 & y8 & y9).
  pose proof (binv_bumped e p3 B3) as B4.
  assert (HE : has_cb (bumped e p3) = has_cb p3 /\ evq (bumped e p3) = evq p3) by (split; [exact (f_equal (fun x => has_cb x) y9)|exact (f_equal (fun x => evq x) y9)]). destruct HE as [HE1 HE2].
  assert (PF : pd_finish e (p3, RNone, [OCmd (CKeyset 1 16 key)]) = do y <- reply_phase e (bumped e p3) ; match y with (p5, o2) => Ok (p5, [OCmd (CKeyset 1 16 key)] ++ o2) end) by reflexivity.
  generalize dependent (bumped e p3). intros p4 y1 y2 y3 y4 y5 y6 y7 y8 y9 B4 HE1 HE2 PF.
  assert (TB : tx_buf_size p4 = tx_buf_size p) by (unfold tx_buf_size; rewrite y8, x8, V4; reflexivity).
  destruct (key_says e c p4 key B4 (proj1 (proj2 CT)) TX (line_reply_p _ _ _ y1 (line_reply_p _ _ _ x1 L)) Qc ltac:(rewrite y2, x2; exact RC) ltac:(congruence) ltac:(congruence) ltac:(congruence) ltac:(rewrite TB; lia))
    as (p0 & w & RP & Qq & LC & G).
  exists (rekeyed key p0), w.
  split. { rewrite (dev_hears e p _ p1 S TK), DC, bind_Ok, PF, RP. reflexivity. }
  destruct (rekeyed_fields key p0) as (r1 & r2 & r3 & r4 & r5 & r6 & r7 & r8 & r9 & r10 & _).
  assert (z1 : caps p0 = caps p4) by exact (f_equal (fun x => caps x) LC). assert (z2 : peer_rx p0 = peer_rx p4) by exact (f_equal (fun x => peer_rx x) LC).
  assert (z3 : address p0 = address p4) by exact (f_equal (fun x => address x) LC). assert (z4 : has_cb p0 = has_cb p4) by exact (f_equal (fun x => has_cb x) LC). assert (z5 : evq p0 = evq p4) by exact (f_equal (fun x => evq x) LC).
  assert (AD : address p4 = address p) by (destruct y1 as (_ & _ & _ & y1); destruct x1 as (_ & _ & _ & x1); congruence).
  split. { constructor; [exact Qq|auto|exact r4| |]; repeat split; congruence. }
  intros h Hh. destruct (G h Hh) as (c1 & T1 & L1 & RX & RB & LN & A1). exists c1. repeat (split; [assumption|]).
  destruct LN as [_ [(LN & _)|LN]].
  - exfalso. change (sc_active (fl c1) = false) in LN. rewrite A1, <- (reply_act c p1 L), A in LN. discriminate.
  - rewrite r5. exact (is_seq _ _ LN).
Qed.

(* --- the panel --- *)
Record new_pan (key : list Z) (z q : pd) : Prop := {
  np_state : state q = SChlng /\ phy_state q = PIdle /\ rq_offline q = false;
  np_rb : rb q = rb z;
  np_key : scbk (sc q) = key /\ use_scbkd (fl q) = false /\ has_scbk (fl q) = true;
  np_seq : seqn q = -1 \/ seqn q = seqn z;
  np_keep : caps q = caps z /\ peer_rx q = peer_rx z /\ address q = address z /\ cmdq q = cmdq z /\ file q = file z
}.
Lemma new_setup key rnd z q : pd_mode (fl q) = false -> has_scbk (fl q) = true -> phy_state q = PIdle -> rq_offline q = false -> rb q = rb z -> scbk (sc q) = key -> use_scbkd (fl q) = false -> seqn q = -1 \/ seqn q = seqn z ->
  caps q = caps z -> peer_rx q = peer_rx z -> address q = address z -> cmdq q = cmdq z -> file q = file z -> new_pan key z (set_state SChlng (sc_setup rnd q)).
Proof.
  intros M H. unfold sc_setup. rewrite M, H. cbn [orb]. cbv zeta iota. intros. constructor; auto.
Qed.
Lemma reset_fields b p : let q := state_reset b p in fl q = fl p /\ sc q = sc p /\ phy_state q = PIdle /\ rb q = rb p /\ caps q = caps p /\ peer_rx q = peer_rx p /\ address q = address p /\ cmdq q = cmdq p /\ file q = file p /\
  rq_offline q = rq_offline p /\ rq_event q = rq_event p /\ rq_restart q = rq_restart p /\ state q = state p /\ eph q = eph p /\ seqn q = (if b then -1 else seqn p).
Proof. destruct b; repeat split. Qed.
Lemma done_more e z : rb (done e z) = rb z /\ caps (done e z) = caps z /\ peer_rx (done e z) = peer_rx z /\ address (done e z) = address z /\ cmdq (done e z) = cmdq z /\ file (done e z) = file z /\
  seqn (done e z) = seqn z /\ sc (done e z) = sc z.
Proof. unfold done. cbv zeta. destruct (sc_active (fl (set_tstamp (e_now e) z))); repeat split. Qed.

(* the panel, online, has the acknowledgement *)
Lemma key_online e z key : state z = SOnline -> reply_id z = 64 -> cmd_id z = 117 -> use_scbkd (fl z) = false -> is_key key -> eph z = EphCmd (CKeyset 1 16 key) -> rq_offline z = false ->
  rq_event z = false -> pd_mode (fl z) = false -> has_scbk (fl z) = true -> exists q o, after_phy e SOnline (done e z) [] = Ok (q, CYield, o) /\ new_pan key z q.
Proof.
  intros S R C U [L B] EP RO RE PM HK. rewrite after_done.
  destruct (done_fields e z) as (f1 & f2 & f3 & f4 & f5 & f6 & f7 & f8 & f9). destruct (done_more e z) as (g1 & g2 & g3 & g4 & g5 & g6 & g7 & g8).
  generalize dependent (done e z). intros y f1 f2 f3 f4 f5 f6 f7 f8 f9 g1 g2 g3 g4 g5 g6 g7 g8.
  unfold state_check_reply. rewrite f2, S. cbv iota. unfold check_online_response. rewrite f3, f4, R, C. cbn [Z.eqb Pos.eqb REPLY_ACK CMD_KEYSET].
  unfold keyset_complete. rewrite f1, U. cbn [negb]. rewrite f8, EP. rewrite (take_ok key 16) by (unfold zlen; lia). cbn [bind]. change (Z.to_nat 16) with 16%nat. rewrite <- L, firstn_all. cbv zeta.
  change (state (sc_deactivate (set_scbk key y))) with (state y). rewrite f2, S. cbn [fst snd].
  set (x := set_rq_restart true (sc_deactivate (set_scbk key y))).
  assert (X : state x = SOnline /\ rq_restart x = true /\ rq_offline x = rq_offline y /\ rq_event x = rq_event y /\ scbk (sc x) = key /\ use_scbkd (fl x) = use_scbkd (fl y) /\ has_scbk (fl x) = has_scbk (fl y) /\ pd_mode (fl x) = pd_mode (fl y) /\
    rb x = rb y /\ caps x = caps y /\ peer_rx x = peer_rx y /\ address x = address y /\ cmdq x = cmdq y /\ file x = file y) by (split; [exact (eq_trans f2 S)|repeat split]).
  destruct X as (x1 & x2 & x3 & x4 & x5 & x6 & x7 & x8 & x9 & x10 & x11 & x12 & x13 & x14). clearbody x.
  match goal with |- exists q o, finish_update _ _ _ _ ?o1 = _ /\ _ => generalize o1 end. intros o1.
  destruct (reset_fields false x) as (r1 & r2 & r3 & r4 & r5 & r6 & r7 & r8 & r9 & r10 & r11 & r12 & r13 & _).
  generalize dependent (state_reset false x). intros v r1 r2 r3 r4 r5 r6 r7 r8 r9 r10 r11 r12 r13.
  unfold finish_update, next_ok_state. rewrite r13, x1. cbv iota. rewrite bind_Ok. unfold do_requests. rewrite r13, x1. cbn [st_eqb orb]. rewrite r12, x2. cbv iota.
  destruct (reset_fields true (set_rq_restart false v)) as (s1 & s2 & s3 & s4 & s5 & s6 & s7 & s8 & s9 & s10 & s11 & _ & _ & _ & s15).
  change (fl (set_rq_restart false v)) with (fl v) in s1. change (sc (set_rq_restart false v)) with (sc v) in s2. change (rb (set_rq_restart false v)) with (rb v) in s4. change (caps (set_rq_restart false v)) with (caps v) in s5.
  change (peer_rx (set_rq_restart false v)) with (peer_rx v) in s6. change (address (set_rq_restart false v)) with (address v) in s7. change (cmdq (set_rq_restart false v)) with (cmdq v) in s8. change (file (set_rq_restart false v)) with (file v) in s9.
  change (rq_offline (set_rq_restart false v)) with (rq_offline v) in s10. change (rq_event (set_rq_restart false v)) with (rq_event v) in s11.
  generalize dependent (state_reset true (set_rq_restart false v)). intros u s1 s2 s3 s4 s5 s6 s7 s8 s9 s10 s11 s15.
  replace (rq_offline u) with false by congruence. cbv iota. replace (rq_event u) with false by congruence. cbn [st_eqb state_change].
  eexists _, _. split; [reflexivity|]. apply new_setup; try congruence. left. exact s15.
Qed.

(* the panel has given its own key to a device with SCBK-D *)
Lemma key_given e z : state z = SSetScbk -> reply_id z = 64 -> cmd_id z = 117 -> use_scbkd (fl z) = true -> rq_offline z = false ->
  pd_mode (fl z) = false -> has_scbk (fl z) = true -> exists q o, after_phy e SSetScbk (done e z) [] = Ok (q, CYield, o) /\ new_pan (scbk (sc z)) z q.
Proof.
  intros S R C U RO PM HK. rewrite after_done.
  destruct (done_fields e z) as (f1 & f2 & f3 & f4 & f5 & f6 & f7 & f8 & f9). destruct (done_more e z) as (g1 & g2 & g3 & g4 & g5 & g6 & g7 & g8).
  generalize dependent (done e z). intros y f1 f2 f3 f4 f5 f6 f7 f8 f9 g1 g2 g3 g4 g5 g6 g7 g8.
  unfold state_check_reply. rewrite f2, S. cbv iota. rewrite f3, R. cbn [Z.eqb Pos.eqb REPLY_ACK bind].
  match goal with |- exists q o, finish_update _ _ _ _ ?o1 = _ /\ _ => generalize o1 end. intros o1.
  destruct (reset_fields false y) as (r1 & r2 & r3 & r4 & r5 & r6 & r7 & r8 & r9 & r10 & r11 & r12 & r13 & _ & r15). cbv iota in r15.
  generalize dependent (state_reset false y). intros v r1 r2 r3 r4 r5 r6 r7 r8 r9 r10 r11 r12 r13 r15.
  unfold finish_update, next_ok_state. rewrite r13, f2, S. cbv iota.
  unfold keyset_complete. rewrite r1, f1, U. cbn [negb bind]. cbv zeta.
  change (state (sc_deactivate (set_use_scbkd false v))) with (state v). rewrite r13, f2, S. cbn [fst snd].
  set (x := sc_deactivate (set_use_scbkd false v)).
  assert (X : state x = SSetScbk /\ rq_offline x = rq_offline v /\ scbk (sc x) = scbk (sc v) /\ use_scbkd (fl x) = false /\ has_scbk (fl x) = has_scbk (fl v) /\ pd_mode (fl x) = pd_mode (fl v) /\
    rb x = rb v /\ caps x = caps v /\ peer_rx x = peer_rx v /\ address x = address v /\ cmdq x = cmdq v /\ file x = file v /\ seqn x = seqn v /\ phy_state x = phy_state v) by (split; [exact (eq_trans r13 (eq_trans f2 S))|repeat split]).
  destruct X as (x1 & x3 & x5 & x6 & x7 & x8 & x9 & x10 & x11 & x12 & x13 & x14 & x15 & x16).
  clearbody x.
  unfold do_requests. rewrite x1. cbn [st_eqb orb state_change].
  eexists _, _. split; [reflexivity|]. apply new_setup; try congruence. right. congruence.
Qed.

(* --- the exchange --- *)
Lemma key_exchange e1 e2 c c0 p key : cp_reach c -> pd_reach p -> env_typed e1 -> env_typed e2 -> 256 <= e_tx e2 -> phy_state c = PIdle -> state_get_cmd e1 c = Ok (c0, 117, []) -> phy_state c0 = PIdle ->
  keeps_link c c0 -> peer_rx c0 = peer_rx c -> is_key key -> eph c0 = EphCmd (CKeyset 1 16 key) -> in_step c p -> quiet c -> quiet p -> 95 <= tx_buf_size c -> 69 <= tx_buf_size p -> has_cb p = true -> cap_sc p = true ->
  moves (cp_do (Update e1) c) (fun c1 => says (cp_do (Update e2) c1) (fun c2 w1 =>
  forall e3, hears e3 w1 -> in_session e3 p -> takes_key key e3 ->
  exists p' w2, pd_do (Refresh e3) p = Ok (p', [OCmd (CKeyset 1 16 key); OTx w2]) /\ new_dev key p p' /\
  (scbk (sc c2) = scbk (sc c0) /\ use_scbkd (fl c2) = use_scbkd (fl c0)) /\
  forall e4, hears e4 w2 -> exists z, state_update e4 c2 = after_phy e4 (state c0) (done e4 z) [] /\
    reply_id z = 64 /\ cmd_id z = 117 /\ eph z = EphCmd (CKeyset 1 16 key) /\ reqcore z = reqcore (set_cmd_id 117 c0) /\ rx_base z /\ rb_contents (rb z) = [] /\ seqn p' = seqn z /\ 0 <= seqn z <= 3)).
Proof.
  intros RC RP T1 T2 X2 Ph G Ph0 KL PX K EP IS Qc Qp N1 N2 HC CS. pose proof (cp_reach_inv c RC) as I. pose proof (reach_inv p RP) as Ip. pose proof (tx_size c) as TS.
  destruct (is_act _ _ IS) as [A1 A2].
  assert (RK : cmd_in_range (CKeyset 1 16 key)) by (destruct K as [K1 K2]; cbn [cmd_in_range]; split; [reflexivity|]; split; [reflexivity|]; split; [unfold zlen; lia|exact K2]).
  destruct (pan_ask e1 e2 c c0 117 p (cmd_wire (CKeyset 1 16 key)) I T1 T2 X2 Ph Ph0 G ltac:(lia) eq_refl KL PX (conj (is_ends _ _ IS) (or_intror IS)) Qc Qp ltac:(apply cmd_fits; [exact RK|lia]))
    as (c1 & c2 & w & U1 & U2 & I2 & Q2 & P2 & R2 & S2 & H2).
  { intros x smb m h1 h2 h3 h4 h5 h6. apply cmd_built; auto; [congruence|]. intros _. rewrite h4. exact A1. }
  exists c1. split; [unfold cp_do; rewrite U1; reflexivity|]. exists c2, w. split; [unfold cp_do; rewrite U2; reflexivity|].
  intros e3 H3 SS AP. destruct (H2 e3 H3) as (p1 & TK & L & LP & RX & RB & A3).
  destruct (key_turn e3 c2 p p1 key w Ip H3 SS TK LP L Q2 RB K HC ltac:(congruence) CS AP N2) as (q & w2 & RF & ND & G2).
  exists q, w2. split; [exact RF|]. split; [exact ND|]. split; [split; [exact (f_equal (fun x => scbk (sc x)) R2)|exact (f_equal (fun x => use_scbkd (fl x)) R2)]|].
  intros e4 H4. destruct (G2 e4 H4) as (d1 & TK1 & L1 & RX1 & RB1 & A4 & SQ).
  exists (set_reply_id 64 d1).
  pose proof (pan_done e4 c2 [64] d1 (set_reply_id 64 d1) P2 TK1 eq_refl) as PD.
  assert (S0 : state c2 = state c0) by exact (f_equal (fun x => state x) R2). rewrite S0 in PD. split; [exact PD|].
  assert (C2 : cmd_id c2 = 117) by exact (f_equal (fun x => cmd_id x) R2). assert (E2 : eph c2 = eph c0) by exact (f_equal (fun x => eph x) R2).
  assert (C3 : cmd_id d1 = cmd_id c2) by exact (f_equal (fun x => cmd_id x) L1). assert (E3 : eph d1 = eph c2) by exact (f_equal (fun x => eph x) L1).
  assert (RQ : reqcore d1 = reqcore c2) by exact (link_req _ _ L1).
  assert (RZ : reqcore (set_reply_id 64 d1) = reqcore d1) by reflexivity.
  split; [reflexivity|]. split; [exact (eq_trans C3 C2)|]. split; [exact (eq_trans E3 (eq_trans E2 EP))|]. split; [exact (eq_trans RZ (eq_trans RQ R2))|].
  split; [exact RX1|]. split; [exact RB1|]. exact SQ.
Qed.

(* --- the handshake that follows --- *)
Definition shaken (c p c2 p2 : pd) : Prop :=
  in_step c2 p2 /\ quiet c2 /\ quiet p2 /\ state c2 = (if use_scbkd (fl c) then SSetScbk else SOnline) /\ after_shake c p c2 p2 /\ cp_reach c2 /\ pd_reach p2.
Lemma shake_rounds c p : may_shake c p -> two_rounds c p (shaken c p).
Proof.
  intros MS e1 e2 T1 T2 X2. destruct (ms_reach _ _ MS) as [RC RP]. destruct (shake_all c p e1 e2 MS T1 T2 X2) as (a1 & D1 & a2 & w1 & D2 & G).
  exists a1. split; [exact D1|]. exists a2, w1. split; [exact D2|]. intros e3 H3. destruct (G e3 H3) as (p3 & w2 & D3 & G3).
  exists p3, w2. split; [exact D3|]. intros e4 H4. destruct (G3 e4 H4) as (c3 & D4 & G4). exists c3, []. split; [exact D4|].
  assert (RCa : cp_reach a1) by exact (cp_reach_by c (Update e1) a1 [] RC T1 D1).
  assert (RCb : cp_reach a2) by exact (cp_reach_by a1 (Update e2) a2 _ RCa T2 D2).
  assert (RC3 : cp_reach c3) by exact (cp_reach_by a2 (Update e4) c3 _ RCb (proj1 H4) D4).
  assert (RP3 : pd_reach p3) by exact (pd_reach_by p (Refresh e3) p3 _ RP (proj1 (proj2 H3)) D3).
  clear D1 D2 D3 D4 G G3 T1 T2 X2 H3 H4 e1 e2 e3 e4 a1 a2 w1 w2 RCa RCb.
  apply (round_mono c3 p3 (fun c6 p6 _ => in_step c6 p6 /\ quiet c6 /\ quiet p6 /\ state c6 = (if use_scbkd (fl c) then SSetScbk else SOnline) /\ after_shake c p c6 p6)); [|exact RC3|exact RP3|].
  - intros c6 p6 _ r1 r2 (h1 & h2 & h3 & h4 & h5). exact (conj h1 (conj h2 (conj h3 (conj h4 (conj h5 (conj r1 r2)))))).
  - intros x5 x6 T5 T6 X6. destruct (G4 x5 x6 T5 T6 X6) as (b1 & D1 & b2 & w1 & D2 & G). exists b1. split; [exact D1|]. exists b2, w1. split; [exact D2|]. intros e8 H8. destruct (G e8 H8) as (p6 & w4 & D3 & G5).
      exists p6, w4. split; [exact D3|]. intros e9 H9. destruct (G5 e9 H9) as (c6 & o & D4 & KK). exists c6, o. split; [exact D4|exact KK].
Qed.
Lemma two_mono c p (K K' : pd -> pd -> Prop) : (forall c' p', K c' p' -> K' c' p') -> cp_reach c -> pd_reach p -> two_rounds c p K -> two_rounds c p K'.
Proof.
  intros M RC RP H. unfold two_rounds in *. revert H. apply round_mono; [|exact RC|exact RP]. intros c1 p1 _ r1 r2. apply round_mono; [|exact r1|exact r2]. intros c2 p2 _ _ _. apply M.
Qed.

Definition works (key : list Z) (c p : pd) : Prop := at_work c p /\ in_step c p /\ share key c p.
Lemma good_caps p q l : caps q = caps p -> Forall (good_cmd p) l -> Forall (good_cmd q) l.
Proof. intros C. apply Forall_impl. intros k (a & b & d). split; [exact a|split; [exact b|rewrite C; exact d]]. Qed.
Lemma good_evs b c p c' p' l : caps c' = caps c -> caps p' = caps p -> peer_rx p' = peer_rx p -> Forall (good_event b c p) l -> Forall (good_event b c' p') l.
Proof. intros C P R. apply Forall_impl. intros ev (a & d & f). split; [exact a|]. rewrite C, P, (tx_size_eq p' p R). exact (conj d f). Qed.

Lemma shaken_works key c p c3 p3 : shaken c p c3 p3 -> can_work c p -> 69 <= tx_buf_size p -> share key c p -> works key c3 p3.
Proof.
  intros (IS & Q4 & Q5 & S4 & [AK [PH4 RO4] AD [AC AP] AI [AN AU] _] & RC4 & RP4) [HK NT NC HC GC GE] N2 (k1 & k2 & k3 & k4 & k5).
  rewrite k3 in S4. rewrite k3, k4, k5 in AU. cbn [orb andb] in AU.
  assert (CQ4 : cmdq c3 = cmdq c) by (unfold ckeep in AK; congruence). assert (FI4 : file c3 = file c) by (unfold ckeep in AK; congruence). assert (PR4 : peer_rx c3 = peer_rx c) by (unfold ckeep in AK; congruence).
  assert (CA4 : caps c3 = caps c) by (unfold ckeep in AK; congruence). assert (SB4 : scbk (sc c3) = scbk (sc c)) by (unfold ckeep in AK; congruence). assert (US4 : use_scbkd (fl c3) = use_scbkd (fl c)) by (unfold ckeep in AK; congruence).
  assert (HP4 : has_cb p3 = has_cb p) by (unfold dkeep in AD; congruence). assert (EQ4 : evq p3 = evq p) by (unfold dkeep in AD; congruence). assert (SP4 : scbk (sc p3) = scbk (sc p)) by (unfold dkeep in AD; congruence).
  assert (NC4 : 95 <= tx_buf_size c3) by (rewrite (tx_size_eq c3 c PR4); exact NC).
  destruct (is_act _ _ IS) as [Y1 Y2].
  split; [|split; [exact IS|]].
  - constructor.
    + constructor; [exact RC4|exact PH4|split; [exact (is_ends _ _ IS)|right; exact IS]|split; assumption|]. split; [lia|rewrite (tx_size_eq p3 p AP); exact N2].
    + exact RP4.
    + split; [exact S4|split; [exact RO4|exact (quiet_event c3 RC4 S4)]].
    + unfold no_transfer in *. rewrite FI4. exact NT.
    + left. exact Y1.
    + right. exact Y2.
    + exact NC4.
    + rewrite HP4. exact HC.
    + rewrite CQ4. exact (good_caps p p3 _ AC GC).
    + rewrite Y1, EQ4. exact (good_evs true c p c3 p3 _ CA4 AC AP GE).
  - unfold share. rewrite SB4, SP4, US4, AU, AN. auto.
Qed.

(* both have the key: the handshake can start *)
Lemma key_ready key c c0 p z c' p' : cp_reach c' -> pd_reach p' -> in_step c p -> cap_sc p = true -> 69 <= tx_buf_size p -> address c0 = address c -> reqcore z = reqcore (set_cmd_id 117 c0) -> peer_rx c0 = peer_rx c ->
  caps c0 = caps c -> file c0 = file c -> has_scbk (fl c) = true -> no_transfer c -> 95 <= tx_buf_size c -> has_cb p = true -> Forall (good_cmd p) (cmdq c0) -> Forall (good_event true c p) (evq p) ->
  rb_contents (rb z) = [] -> seqn p' = seqn z -> 0 <= seqn z <= 3 -> new_dev key p p' -> new_pan key z c' -> may_shake c' p' /\ can_work c' p' /\ 69 <= tx_buf_size p' /\ share key c' p'.
Proof.
  intros RC RP IS CS N2 AD RQ PX CX FX HK NT NC HC GC GE RB SQ SR [n1 (n2 & n3 & n4) n5 (n6 & n7 & n8) (n9 & n10)] [m1 m2 (m3 & m4 & m5) m6 (m7 & m8 & m9 & m10 & m11)].
  assert (v1 : caps z = caps c0) by exact (f_equal (fun x => caps x) RQ). assert (v2 : peer_rx z = peer_rx c0) by exact (f_equal (fun x => peer_rx x) RQ). assert (v3 : address z = address c0) by exact (f_equal (fun x => address x) RQ).
  assert (v4 : cmdq z = cmdq c0) by exact (f_equal (fun x => cmdq x) RQ). assert (v5 : file z = file c0) by exact (f_equal (fun x => file x) RQ).
  pose proof (nd_addr _ _ (is_ends _ _ IS)) as [A1 A2].
  assert (TC : tx_buf_size c' = tx_buf_size c) by (apply tx_size_eq; congruence). assert (TP : tx_buf_size p' = tx_buf_size p) by (apply tx_size_eq; exact n7).
  pose proof (reach_inv p' RP) as Ip. destruct (iv_scap _ (iv_b _ Ip)) as [Y1 Y2].
  split; [|split; [|split]].
  - constructor.
    + exact (conj RC RP).
    + exact m1.
    + split; [rewrite m2; exact RB|exact n1].
    + rewrite n8, m9, v3, AD. auto.
    + destruct m6 as [m6|m6]; rewrite m6; [left; reflexivity|rewrite SQ; right; right; reflexivity].
    + rewrite TC, TP. lia.
    + split; [unfold sc_is_capable; rewrite Y1, Y2; reflexivity|unfold cap_sc, cap_at in *; rewrite n6; exact CS].
    + rewrite m4, n3, n4, m3, n2. reflexivity.
  - constructor.
    + exact m5.
    + unfold no_transfer in *. rewrite m11, v5, FX. exact NT.
    + rewrite TC. exact NC.
    + rewrite n9. exact HC.
    + rewrite m10, v4. exact (good_caps p p' _ n6 GC).
    + rewrite n10. apply (good_evs true c p); congruence || exact GE.
  - rewrite TP. exact N2.
  - unfold share. auto.
Qed.

(* a key command *)
Lemma rotates c p e key c0 o : at_work c p -> in_step c p -> cmdq c = [] -> has_scbk (fl c) = true -> use_scbkd (fl c) = false -> cap_sc p = true -> is_key key -> env_typed e ->
  cp_send_command e c (CKeyset 1 16 key) = (c0, true, o) ->
  key_round key c0 p (fun c1 p1 _ => two_rounds c1 p1 (works key)).
Proof.
  intros [[RC PH LN [Qc Qp] [NC0 NP]] RP (St & RO & RE) NT SE AM NC HC GC GE] IS CQ HK US CS K ET SND.
  destruct (is_act _ _ IS) as [A1 A2]. rewrite A1 in GE.
  assert (RK : cmd_in_range (CKeyset 1 16 key)) by (destruct K as [K1 K2]; cbn [cmd_in_range]; split; [reflexivity|]; split; [reflexivity|]; split; [unfold zlen; lia|exact K2]).
  assert (DS : cp_do (Send e (CKeyset 1 16 key)) c = Ok (c0, o)) by (unfold cp_do; rewrite SND; reflexivity).
  assert (RC0 : cp_reach c0).
  { apply (cp_reach_by c (Send e (CKeyset 1 16 key)) c0 o RC); [|exact DS]. split; [exact ET|exact (proj2 K)]. }
  assert (E0 : c0 = set_cmdq [CKeyset 1 16 key] c).
  { unfold cp_send_command in SND. rewrite St, A1, CQ in SND. cbn [st_eqb negb orb Z.eqb Pos.eqb app] in SND. destruct (zlen [] <? pool c); [|discriminate]. injection SND as <- _. reflexivity. }
  assert (IS0 : in_step c0 p) by (rewrite E0; destruct IS as [[i1 i2 i3 i4] i5 i6 i7 i8 i9 i10]; constructor; [constructor|..]; assumption).
  intros e1 e2 T1 T2 X2.
  destruct (cmd_pending e1 c0 (CKeyset 1 16 key) [] ltac:(rewrite E0; exact St) ltac:(rewrite E0; reflexivity) RK ltac:(intros _; rewrite E0; exact A1)) as (GT & _ & _).
  set (c00 := set_eph (EphCmd (CKeyset 1 16 key)) (set_cmdq [] c0)) in *.
  assert (F : phy_state c0 = PIdle /\ phy_state c00 = PIdle /\ keeps_link c0 c00 /\ peer_rx c00 = peer_rx c0 /\ eph c00 = EphCmd (CKeyset 1 16 key) /\ quiet c0 /\ tx_buf_size c0 = tx_buf_size c /\ address c00 = address c /\ peer_rx c00 = peer_rx c /\
    caps c00 = caps c /\ file c00 = file c /\ cmdq c00 = [] /\ state c00 = SOnline /\ rq_offline c00 = false /\ rq_event c00 = false /\ fl c00 = fl c).
  { unfold c00. rewrite E0. split; [exact PH|]. split; [exact PH|]. split; [split; [|split; [|split; [|split; [|split; [|split; [|split]]]]]]; reflexivity|]. split; [reflexivity|]. split; [reflexivity|]. split; [exact Qc|]. do 6 (split; [reflexivity|]). auto. }
  destruct F as (F1 & F2 & F3 & F4 & F5 & F6 & F7 & F8 & F9 & F10 & F11 & F12 & F13 & F14 & F15 & F16). clearbody c00.
  destruct (key_exchange e1 e2 c0 c00 p key RC0 RP T1 T2 X2 F1 GT F2 F3 F4 K F5 IS0 F6 Qp ltac:(rewrite F7; exact NC) NP HC CS) as (c1 & D1 & c2 & w1 & D2 & G).
  exists c1. split; [exact D1|]. exists c2, w1. split; [exact D2|]. intros e3 H3 SS AP. destruct (G e3 H3 SS AP) as (p' & w2 & D3 & ND & _ & G3).
  exists p', w2. split; [exact D3|]. intros e4 H4. destruct (G3 e4 H4) as (z & U & z1 & z2 & z3 & z4 & z5 & z6 & z7 & z8). rewrite F13 in U.
  assert (y1 : state z = state c00) by exact (f_equal (fun x => state x) z4). assert (y2 : use_scbkd (fl z) = use_scbkd (fl c00)) by exact (f_equal (fun x => use_scbkd (fl x)) z4).
  assert (y3 : rq_offline z = rq_offline c00) by exact (f_equal (fun x => rq_offline x) z4). assert (y4 : rq_event z = rq_event c00) by exact (f_equal (fun x => rq_event x) z4).
  assert (y5 : pd_mode (fl z) = pd_mode (fl c00)) by exact (f_equal (fun x => pd_mode (fl x)) z4). assert (y6 : has_scbk (fl z) = has_scbk (fl c00)) by exact (f_equal (fun x => has_scbk (fl x)) z4).
  pose proof (cv_mode _ (ci_b _ (cp_reach_inv c RC))) as PM.
  destruct (key_online e4 z key ltac:(congruence) z1 z2 ltac:(congruence) K z3 ltac:(congruence) ltac:(congruence) ltac:(congruence) ltac:(congruence)) as (c' & o' & AE & NP').
  rewrite AE in U. exists c', o'.
  assert (D4 : cp_do (Update e4) c2 = Ok (c', o')) by (unfold cp_do; rewrite U; reflexivity). split; [exact D4|].
  assert (RC1 : cp_reach c1) by exact (cp_reach_by c0 (Update e1) c1 _ RC0 T1 D1). assert (RC2 : cp_reach c2) by exact (cp_reach_by c1 (Update e2) c2 _ RC1 T2 D2).
  assert (RC' : cp_reach c') by exact (cp_reach_by c2 (Update e4) c' _ RC2 (proj1 H4) D4). assert (RP' : pd_reach p') by exact (pd_reach_by p (Refresh e3) p' _ RP (proj1 (proj2 H3)) D3).
  destruct (key_ready key c c00 p z c' p' RC' RP' IS CS NP F8 z4 F9 F10 F11 HK NT NC HC ltac:(rewrite F12; constructor) GE z6 z7 z8 ND NP') as (MS & CW & NP1 & SH).
  apply (two_mono c' p' (shaken c' p')); [|exact RC'|exact RP'|exact (shake_rounds c' p' MS)]. intros c3 p3 SK. exact (shaken_works key c' p' c3 p3 SK CW NP1 SH).
Qed.

(* a device that has no key yet *)
Lemma shaken_sets c p c4 p4 : shaken c p c4 p4 -> use_scbkd (fl c) = true -> can_work c p -> 69 <= tx_buf_size p -> cap_sc p = true ->
  key_round (scbk (sc c)) c4 p4 (fun c1 p1 _ => two_rounds c1 p1 (works (scbk (sc c)))).
Proof.
  intros (IS & Q4 & Q5 & S4 & [AK [PH4 RO4] AD [AC AP] AI _ ST] & RC4 & RP4) US [HK NT NC HC GC GE] N2 CS.
  rewrite US in S4. specialize (ST US).
  assert (CQ4 : cmdq c4 = cmdq c) by (unfold ckeep in AK; congruence). assert (FI4 : file c4 = file c) by (unfold ckeep in AK; congruence). assert (PR4 : peer_rx c4 = peer_rx c) by (unfold ckeep in AK; congruence).
  assert (CA4 : caps c4 = caps c) by (unfold ckeep in AK; congruence). assert (SB4 : scbk (sc c4) = scbk (sc c)) by (unfold ckeep in AK; congruence). assert (US4 : use_scbkd (fl c4) = use_scbkd (fl c)) by (unfold ckeep in AK; congruence).
  assert (HS4 : has_scbk (fl c4) = has_scbk (fl c)) by (unfold ckeep in AK; congruence).
  assert (HP4 : has_cb p4 = has_cb p) by (unfold dkeep in AD; congruence). assert (EQ4 : evq p4 = evq p) by (unfold dkeep in AD; congruence).
  pose proof (cp_reach_inv c4 RC4) as I4.
  assert (K : is_key (scbk (sc c))) by (rewrite <- SB4; destruct (cv_ty _ (ci_b _ I4)) as (_ & _ & _ & SW & _); destruct SW as (_ & SW); exact (proj1 SW)).
  assert (NC4 : 95 <= tx_buf_size c4) by (rewrite (tx_size_eq c4 c PR4); exact NC). assert (NP4 : 69 <= tx_buf_size p4) by (rewrite (tx_size_eq p4 p AP); exact N2).
  assert (CS4 : cap_sc p4 = true) by (unfold cap_sc, cap_at in *; rewrite AC; exact CS).
  intros e1 e2 T1 T2 X2.
  assert (GT : state_get_cmd e1 c4 = Ok (c4, 117, [])) by (unfold state_get_cmd; rewrite S4; reflexivity).
  assert (KL : keeps_link c4 c4) by (repeat split).
  destruct (key_exchange e1 e2 c4 c4 p4 (scbk (sc c)) RC4 RP4 T1 T2 X2 PH4 GT PH4 KL eq_refl K ST IS Q4 Q5 NC4 NP4 ltac:(congruence) CS4) as (c1 & D1 & c2 & w1 & D2 & G).
  exists c1. split; [exact D1|]. exists c2, w1. split; [exact D2|]. intros e3 H3 SS TKY. destruct (G e3 H3 SS TKY) as (p' & w2 & D3 & ND & _ & G3).
  exists p', w2. split; [exact D3|]. intros e4 H4. destruct (G3 e4 H4) as (z & U & z1 & z2 & z3 & z4 & z5 & z6 & z7 & z8). rewrite S4 in U.
  assert (y1 : state z = state c4) by exact (f_equal (fun x => state x) z4). assert (y2 : use_scbkd (fl z) = use_scbkd (fl c4)) by exact (f_equal (fun x => use_scbkd (fl x)) z4).
  assert (y3 : rq_offline z = rq_offline c4) by exact (f_equal (fun x => rq_offline x) z4). assert (y5 : pd_mode (fl z) = pd_mode (fl c4)) by exact (f_equal (fun x => pd_mode (fl x)) z4).
  assert (y6 : has_scbk (fl z) = has_scbk (fl c4)) by exact (f_equal (fun x => has_scbk (fl x)) z4). assert (y7 : scbk (sc z) = scbk (sc c4)) by exact (f_equal (fun x => scbk (sc x)) z4).
  pose proof (cv_mode _ (ci_b _ I4)) as PM.
  destruct (key_given e4 z ltac:(congruence) z1 z2 ltac:(congruence) ltac:(congruence) ltac:(congruence) ltac:(congruence)) as (c' & o' & AE & NP').
  rewrite y7, SB4 in NP'. rewrite AE in U. exists c', o'.
  assert (D4 : cp_do (Update e4) c2 = Ok (c', o')) by (unfold cp_do; rewrite U; reflexivity). split; [exact D4|].
  assert (RC1 : cp_reach c1) by exact (cp_reach_by c4 (Update e1) c1 _ RC4 T1 D1). assert (RC2 : cp_reach c2) by exact (cp_reach_by c1 (Update e2) c2 _ RC1 T2 D2).
  assert (RC' : cp_reach c') by exact (cp_reach_by c2 (Update e4) c' _ RC2 (proj1 H4) D4). assert (RP' : pd_reach p') by exact (pd_reach_by p4 (Refresh e3) p' _ RP4 (proj1 (proj2 H3)) D3).
  destruct (key_ready (scbk (sc c)) c4 c4 p4 z c' p' RC' RP' IS CS4 NP4 eq_refl z4 eq_refl eq_refl eq_refl ltac:(congruence) ltac:(unfold no_transfer in *; rewrite FI4; exact NT) NC4 ltac:(congruence)
    ltac:(rewrite CQ4; exact (good_caps p p4 _ AC GC)) ltac:(rewrite EQ4; exact (good_evs true c p c4 p4 _ CA4 AC AP GE)) z6 z7 z8 ND NP') as (MS & CW & NP1 & SH).
  apply (two_mono c' p' (shaken c' p')); [|exact RC'|exact RP'|exact (shake_rounds c' p' MS)]. intros c3 p3 SK. exact (shaken_works (scbk (sc c)) c' p' c3 p3 SK CW NP1 SH).
Qed.
Lemma provisioned c p : may_shake c p -> use_scbkd (fl c) = true -> can_work c p ->
  two_rounds c p (fun c2 p2 => key_round (scbk (sc c)) c2 p2 (fun c3 p3 _ => two_rounds c3 p3 (works (scbk (sc c))))).
Proof.
  intros MS US CW. destruct (ms_reach _ _ MS) as [RC RP]. destruct (ms_room _ _ MS) as [_ N2]. destruct (ms_able _ _ MS) as [_ CS].
  apply (two_mono c p (shaken c p)); [|exact RC|exact RP|exact (shake_rounds c p MS)]. intros c4 p4 SK. exact (shaken_sets c p c4 p4 SK US CW N2 CS).
Qed.

(* the device took the key, its answer did not arrive *)
Lemma halfway c p e key c0 o : at_work c p -> in_step c p -> cmdq c = [] -> cap_sc p = true -> is_key key -> env_typed e ->
  cp_send_command e c (CKeyset 1 16 key) = (c0, true, o) -> forall e1 e2, env_typed e1 -> env_typed e2 -> 256 <= e_tx e2 ->
  moves (cp_do (Update e1) c0) (fun c1 => says (cp_do (Update e2) c1) (fun c2 w1 =>
  forall e3, hears e3 w1 -> in_session e3 p -> takes_key key e3 ->
  exists p' w2, pd_do (Refresh e3) p = Ok (p', [OCmd (CKeyset 1 16 key); OTx w2]) /\
  scbk (sc p') = key /\ use_scbkd (fl p') = false /\ install (fl p') = false /\ sc_active (fl p') = false /\
  scbk (sc c2) = scbk (sc c) /\ use_scbkd (fl c2) = use_scbkd (fl c))).
Proof.
  intros [[RC PH LN [Qc Qp] [NC0 NP]] RP (St & RO & RE) NT SE AM NC HC GC GE] IS CQ CS K ET SND e1 e2 T1 T2 X2.
  destruct (is_act _ _ IS) as [A1 A2].
  assert (RK : cmd_in_range (CKeyset 1 16 key)) by (destruct K as [K1 K2]; cbn [cmd_in_range]; split; [reflexivity|]; split; [reflexivity|]; split; [unfold zlen; lia|exact K2]).
  assert (DS : cp_do (Send e (CKeyset 1 16 key)) c = Ok (c0, o)) by (unfold cp_do; rewrite SND; reflexivity).
  assert (RC0 : cp_reach c0).
  { apply (cp_reach_by c (Send e (CKeyset 1 16 key)) c0 o RC); [|exact DS]. split; [exact ET|exact (proj2 K)]. }
  assert (E0 : c0 = set_cmdq [CKeyset 1 16 key] c).
  { unfold cp_send_command in SND. rewrite St, A1, CQ in SND. cbn [st_eqb negb orb Z.eqb Pos.eqb app] in SND. destruct (zlen [] <? pool c); [|discriminate]. injection SND as <- _. reflexivity. }
  assert (IS0 : in_step c0 p) by (rewrite E0; destruct IS as [[i1 i2 i3 i4] i5 i6 i7 i8 i9 i10]; constructor; [constructor|..]; assumption).
  destruct (cmd_pending e1 c0 (CKeyset 1 16 key) [] ltac:(rewrite E0; exact St) ltac:(rewrite E0; reflexivity) RK ltac:(intros _; rewrite E0; exact A1)) as (GT & _ & _).
  set (c00 := set_eph (EphCmd (CKeyset 1 16 key)) (set_cmdq [] c0)) in *.
  assert (F : phy_state c0 = PIdle /\ phy_state c00 = PIdle /\ keeps_link c0 c00 /\ peer_rx c00 = peer_rx c0 /\ eph c00 = EphCmd (CKeyset 1 16 key) /\ quiet c0 /\ tx_buf_size c0 = tx_buf_size c /\ fl c00 = fl c /\ sc c00 = sc c).
  { unfold c00. rewrite E0. split; [exact PH|]. split; [exact PH|]. split; [split; [|split; [|split; [|split; [|split; [|split; [|split]]]]]]; reflexivity|]. split; [reflexivity|]. split; [reflexivity|]. split; [exact Qc|]. do 2 (split; [reflexivity|]). reflexivity. }
  destruct F as (F1 & F2 & F3 & F4 & F5 & F6 & F7 & F8 & F9). clearbody c00.
  destruct (key_exchange e1 e2 c0 c00 p key RC0 RP T1 T2 X2 F1 GT F2 F3 F4 K F5 IS0 F6 Qp ltac:(rewrite F7; exact NC) NP HC CS) as (c1 & D1 & c2 & w1 & D2 & G).
  exists c1. split; [exact D1|]. exists c2, w1. split; [exact D2|]. intros e3 H3 SS AP. destruct (G e3 H3 SS AP) as (p' & w2 & D3 & [_ (n1 & n2 & n3) n4 _ _] & [m1 m2] & _).
  exists p', w2. rewrite F9 in m1. rewrite F8 in m2. auto 10.
Qed.
