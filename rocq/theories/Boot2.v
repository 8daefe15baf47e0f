(** Panel and device: from the first question to normal operation, all exchanges. *)
From Verif Require Import Base ListLemmas Crc SpecCrc CrcProofs CrcBurst Aes AesProofs Rb RbProofs
  Types Sc ScProofs Phy PhyCheck File Pd Cp PdRun SpecRx SpecFrame SpecSec SpecSession SpecCmd SpecApp SpecPd SpecLink RxProofs RxFwd PdRx PdCore PhyTx PdTx PdReply
  PdStep PdWire PdFwd PdSec PdApp PdTrace PdHist2 MacProofs WireSec CpCtx SpecCp SpecCpRun CpTx CpRx CpStep CpInv CpEdge CpFacts CpSum CpFwd CpAuth Chunk Trip ChunkRun LinkProofs LinkStep CpSend SpecTalk Hand Shake Line Talk Talk2 Talk3 Talk4 Talk5 Talk6 PdPlain PdRefuse SpecLost Lost Lost2 Run1 Run2 Boot SpecHand SpecRun SpecBoot.
From Coq Require Import ZifyBool ZifyNat.
Ltac Zify.zify_post_hook ::= Z.div_mod_to_equations.
Local Opaque aes_ecb_encrypt aes_cbc_encrypt aes_cbc_decrypt mac_of RB_SIZE osdp_mac enc1 osdp_encrypt encrypt_data cap_entries.

(* --- rounds --- *)
Lemma round_mono c p (K K' : pd -> pd -> list out -> Prop) : (forall c' p' o, cp_reach c' -> pd_reach p' -> K c' p' o -> K' c' p' o) -> cp_reach c -> pd_reach p -> round c p K -> round c p K'.
Proof.
  intros M RC RP R e1 e2 T1 T2 X2. destruct (R e1 e2 T1 T2 X2) as (c1 & D1 & c2 & w1 & D2 & G).
  exists c1. split; [exact D1|]. exists c2, w1. split; [exact D2|]. intros e3 H3. destruct (G e3 H3) as (p' & w2 & D3 & G3).
  exists p', w2. split; [exact D3|]. intros e4 H4. destruct (G3 e4 H4) as (c' & o & D4 & KK). exists c', o. split; [exact D4|].
  assert (RC1 : cp_reach c1) by exact (cp_reach_by c (Update e1) c1 [] RC T1 D1).
  assert (RC2 : cp_reach c2) by exact (cp_reach_by c1 (Update e2) c2 _ RC1 T2 D2).
  apply M; [exact (cp_reach_by c2 (Update e4) c' o RC2 (proj1 H4) D4)|exact (pd_reach_by p (Refresh e3) p' _ RP (proj1 (proj2 H3)) D3)|exact KK].
Qed.

(* --- the line as the panel sees it --- *)
Lemma meet_line c p : cpi c -> pd_inv p -> state c = SInit -> seqn c = -1 -> address p = address c /\ 0 <= address c < 127 -> broadcast (fl p) = false -> line c (anew p).
Proof.
  intros I Ip St Sq Ad Bc. split.
  - constructor; [exact (cv_mode _ (ci_b _ I))|exact (iv_mode _ (iv_b _ Ip))|split; [exact (cv_skip _ (ci_b _ I))|exact (iv_skip _ (iv_b _ Ip))]|exact Ad|exact Bc].
  - left. split; [|split; [reflexivity|split; [rewrite Sq; lia|split; [change (-1 <= -1 <= 3); lia|rewrite Sq; left; reflexivity]]]].
    destruct (sc_active (fl c)) eqn:E; [|reflexivity]. destruct (ci_act _ I E) as [X|X]; rewrite St in X; discriminate.
Qed.
Lemma tx_size_eq p q : peer_rx p = peer_rx q -> tx_buf_size p = tx_buf_size q.
Proof. intros H. unfold tx_buf_size. rewrite H. reflexivity. Qed.
Lemma tx_size_ge c : 95 <= peer_rx c -> 95 <= tx_buf_size c.
Proof. intros H. unfold tx_buf_size. replace (peer_rx c =? 0) with false by lia. change PBUF_SIZE with 256. lia. Qed.

(* both know each other *)
Record met (c p c2 p2 : pd) : Prop := {
  mt_kn : knows c p c2 p2;
  mt_idle : phy_state c2 = PIdle;
  mt_caps : caps c2 = read_caps (length (entries (caps p) 1 16)) (entries (caps p) 1 16) (caps c);
  mt_peer : peer_rx c2 = declared_size (caps p);
  mt_keep : mkeep c2 = mkeep c;
  mt_dev : mdev p2 = mdev p;
  mt_able : sc_is_capable c2 = negb (sc_disabled (fl c));
  mt_state : state c2 = (if sc_disabled (fl c) then SOnline else SChlng);
  mt_key : sc_disabled (fl c) = false -> use_scbkd (fl c2) = false;
  mt_act : sc_active (fl c2) = false
}.
Lemma meet b c p : may_meet b c p -> same_key c p \/ no_key c p -> round c p (fun c1 p1 _ => round c1 p1 (fun c2 p2 _ => met c p c2 p2 /\ cp_reach c2 /\ pd_reach p2)).
Proof.
  intros [(St & Ph & Sq) [[RC RP] [RO NT] Ad (Qc & Qp & Bc) L17 [N1 N2] [D10 DS] HC GC GE]] KY.
  pose proof (cp_reach_inv _ RC) as I. pose proof (reach_inv _ RP) as Ip. pose proof (meet_line c p I Ip St Sq Ad Bc) as LN.
  apply (round_mono c p (fun c1 p1 _ => knows c p c1 p1 /\ state c1 = SCapdet /\ phy_state c1 = PIdle /\ caps c1 = caps c /\ peer_rx c1 = peer_rx c /\ mkeep c1 = mkeep c /\ mdev p1 = mdev p)); [|exact RC|exact RP|].
  - intros c1 p1 _ RC1 RP1 ([[I1 Ip1] L1 [q1 q2] [d1 [d2 d3]]] & S1 & P1 & C1 & PR1 & M1 & V1).
    assert (RO1 : rq_offline c1 = false) by (unfold mkeep in M1; congruence). assert (SD1 : sc_disabled (fl c1) = sc_disabled (fl c)) by (unfold mkeep in M1; congruence).
    assert (HS1 : has_scbk (fl c1) = has_scbk (fl c)) by (unfold mkeep in M1; congruence). assert (EN1 : enforce (fl c1) = enforce (fl c)) by (unfold mkeep in M1; congruence).
    apply (round_mono c1 p1 (fun c2 p2 _ => met c p c2 p2)); [intros; auto|exact RC1|exact RP1|].
    intros e1 e2 T1 T2 X2.
    destruct (meet_cap e1 e2 c1 p1 I1 Ip1 T1 T2 X2 S1 P1 L1 q1 q2) as (a & D1 & a2 & w1 & D2 & G).
    { rewrite (tx_size_eq c1 c PR1); exact N1. } { rewrite (tx_size_eq p1 p d3); exact N2. } { exact RO1. } { rewrite C1; exact L17. } { rewrite d2; exact D10. }
    { rewrite d2, HS1, SD1, EN1. destruct KY as [(k1 & k2 & k3 & k4 & k5 & k6)|(k1 & k2 & k3)]; [left; auto|right; auto]. }
    exists a. split; [exact D1|]. exists a2, w1. split; [exact D2|]. intros e3 H3. destruct (G e3 H3) as (p2 & w2 & D3 & G3).
    exists p2, w2. split; [exact D3|]. intros e4 H4. destruct (G3 e4 H4) as (c2 & o & D4 & [k1 k2 k3 (e5 & e6 & e7)] & m1 & m2 & m3 & m4 & m5 & m6 & m7 & m8 & m9 & m10).
    exists c2, o. split; [exact D4|]. rewrite d2, C1 in m3. rewrite d2 in m4. rewrite SD1 in m7, m8, m9.
    constructor; auto.
    + constructor; auto. split; [exact (eq_trans e5 d1)|split; [exact (eq_trans e6 d2)|exact (eq_trans e7 d3)]].
    + exact (eq_trans m5 M1).
    + exact (eq_trans m6 V1).
  - intros e1 e2 T1 T2 X2. destruct (meet_id e1 e2 c p I Ip T1 T2 X2 St Ph LN Qc Qp N1 N2) as (a & D1 & a2 & w1 & D2 & G).
    exists a. split; [exact D1|]. exists a2, w1. split; [exact D2|]. intros e3 H3. destruct (G e3 H3) as (p2 & w2 & D3 & G3).
    exists p2, w2. split; [exact D3|]. intros e4 H4. destruct (G3 e4 H4) as (c2 & D4 & KK). exists c2, []. split; [exact D4|exact KK].
Qed.
Lemma meet_events b c p c2 : Forall (event_ready b p) (evq p) -> length (caps c) = 17%nat -> caps c2 = read_caps (length (entries (caps p) 1 16)) (entries (caps p) 1 16) (caps c) ->
  forall p2, caps p2 = caps p -> peer_rx p2 = peer_rx p -> Forall (good_event b c2 p2) (evq p).
Proof.
  intros F L C p2 C2 P2. eapply Forall_impl; [|exact F]. intros ev (R & (pay & E & FT) & D). split; [exact R|]. split.
  - destruct ev; cbn [items_known]; auto. cbn [event_payload] in E. cbv beta iota in D. destruct D as [D1 D2]. rewrite C. unfold cap_items in *.
    destruct (caps_read (caps p) 16 1 (length (entries (caps p) 1 16)) (caps c) 1 ltac:(lia) L (le_n _)) as [A1 _].
    destruct (caps_read (caps p) 16 1 (length (entries (caps p) 1 16)) (caps c) 2 ltac:(lia) L (le_n _)) as [A2 _].
    split; intros ->.
    + rewrite (A1 (D1 eq_refl) ltac:(lia)). change (0 =? 0) with true in E. cbv iota in E. destruct (_ =? _) eqn:Y in E; [lia|discriminate].
    + rewrite (A2 (D2 eq_refl) ltac:(lia)). change (1 =? 0) with false in E. change (1 =? 1) with true in E. cbv iota in E. destruct (_ =? _) eqn:Y in E; [lia|discriminate].
  - exists pay. rewrite C2, (tx_size_eq p2 p P2). split; assumption.
Qed.
Lemma quiet_event c : cp_reach c -> state c = SOnline -> rq_event c = false.
Proof. intros (k & n & i & h & R). exact (runs_pending k n i h c R). Qed.

(* without a key *)
Lemma comes_plain c p : may_meet false c p -> no_key c p -> round c p (fun c1 p1 _ => round c1 p1 (fun c2 p2 _ => at_work c2 p2 /\ sc_active (fl c2) = false)).
Proof.
  intros MM NK. pose proof MM as [(St & Ph & Sq) [[RC RP] [RO NT] Ad (Qc & Qp & Bc) L17 [N1 N2] [D10 DS] HC GC GE]]. pose proof NK as (SD & NE & NP).
  apply (round_mono c p (fun c1 p1 _ => round c1 p1 (fun c2 p2 _ => met c p c2 p2 /\ cp_reach c2 /\ pd_reach p2) /\ cp_reach c1 /\ pd_reach p1)); [|exact RC|exact RP|].
  2:{ apply (round_mono c p _ _ (fun c' p' o a b H => conj H (conj a b)) RC RP). exact (meet false c p MM (or_intror NK)). }
  intros c1 p1 _ _ _ (R1 & RC1 & RP1). revert R1. apply round_mono; [|exact RC1|exact RP1].
  intros c2 p2 _ _ _ ([[k1 k2 k3 (e5 & e6 & e7)] m2 m3 m4 m5 m6 m7 m8 m9 m10] & RC2 & RP2). split; [|exact m10]. rewrite SD in m7, m8.
  assert (CQ : cmdq c2 = cmdq c) by (unfold mkeep in m5; congruence). assert (FI : file c2 = file c) by (unfold mkeep in m5; congruence). assert (RO2 : rq_offline c2 = false) by (unfold mkeep in m5; congruence).
  assert (EP : enforce (fl p2) = enforce (fl p)) by (unfold mdev, dkeep in m6; congruence). assert (HP : has_cb p2 = has_cb p) by (unfold mdev, dkeep in m6; congruence). assert (EQ : evq p2 = evq p) by (unfold mdev, dkeep in m6; congruence).
  constructor.
  - constructor; [exact RC2|exact m2|exact k2|exact k3|]. split; [|rewrite (tx_size_eq p2 p e7); exact N2]. pose proof (tx_size_ge c2 ltac:(rewrite m4; exact DS)); lia.
  - exact RP2.
  - split; [exact m8|split; [exact RO2|exact (quiet_event c2 RC2 m8)]].
  - unfold no_transfer in *. rewrite FI. exact NT.
  - right. exact m7.
  - left. rewrite EP. exact NP.
  - apply tx_size_ge. rewrite m4. exact DS.
  - rewrite HP. exact HC.
  - rewrite CQ. eapply Forall_impl; [|exact GC]. intros k (a1 & a2 & a3). split; [exact a1|split; [exact a2|rewrite e6; exact a3]].
  - rewrite m10, EQ. exact (meet_events false c p c2 GE L17 m3 p2 e6 e7).
Qed.

(* with a key *)
Lemma comes_secure c p : may_meet true c p -> same_key c p -> round c p (fun c1 p1 _ => round c1 p1 (fun c2 p2 _ => round c2 p2 (fun c3 p3 _ => round c3 p3 (fun c4 p4 _ => at_work c4 p4 /\ in_step c4 p4)))).
Proof.
  intros MM NK. pose proof MM as [(St & Ph & Sq) [[RC RP] [RO NT] Ad (Qc & Qp & Bc) L17 [N1 N2] [D10 DS] HC GC GE]]. pose proof NK as (HK & SD & SK & NU & D9 & B9).
  apply (round_mono c p (fun c1 p1 _ => round c1 p1 (fun c2 p2 _ => met c p c2 p2 /\ cp_reach c2 /\ pd_reach p2) /\ cp_reach c1 /\ pd_reach p1)); [|exact RC|exact RP|].
  2:{ apply (round_mono c p _ _ (fun c' p' o a b H => conj H (conj a b)) RC RP). exact (meet true c p MM (or_introl NK)). }
  intros c1 p1 _ _ _ (R1 & RC1 & RP1). revert R1. apply round_mono; [|exact RC1|exact RP1].
  intros c2 p2 _ _ _ ([[[I2 Ip2] k2 [q1 q2] (e5 & e6 & e7)] m2 m3 m4 m5 m6 m7 m8 m9 m10] & RC2 & RP2). rewrite SD in m7, m8. specialize (m9 SD).
  assert (CQ : cmdq c2 = cmdq c) by (unfold mkeep in m5; congruence). assert (FI : file c2 = file c) by (unfold mkeep in m5; congruence). assert (RO2 : rq_offline c2 = false) by (unfold mkeep in m5; congruence).
  assert (SC : scbk (sc c2) = scbk (sc c)) by (unfold mkeep in m5; congruence).
  assert (HP : has_cb p2 = has_cb p) by (unfold mdev, dkeep in m6; congruence). assert (EQ : evq p2 = evq p) by (unfold mdev, dkeep in m6; congruence).
  assert (SP : scbk (sc p2) = scbk (sc p)) by (unfold mdev, dkeep in m6; congruence). assert (UP : use_scbkd (fl p2) = false) by (unfold mdev, dkeep in m6; congruence).
  assert (NC2 : 95 <= tx_buf_size c2) by (apply tx_size_ge; rewrite m4; exact DS). assert (NP2 : 69 <= tx_buf_size p2) by (rewrite (tx_size_eq p2 p e7); exact N2).
  assert (MS : may_shake c2 p2).
  { destruct k2 as [EN k2]. constructor; auto.
    - split; [apply q1|exact q2].
    - exact (nd_addr _ _ EN).
    - destruct k2 as [(_ & _ & _ & _ & X)|X]; [exact X|]. pose proof (proj1 (is_act _ _ X)) as Y. rewrite m10 in Y. discriminate.
    - split; [lia|exact NP2].
    - split; [destruct (iv_scap _ (iv_b _ Ip2)) as [Y1 Y2]; unfold sc_is_capable; rewrite Y1, Y2; reflexivity|]. unfold cap_sc, cap_at. change (Z.to_nat CAP_COMMSEC) with 9%nat. rewrite e6. destruct (Z.eqb_spec (c_comp (nth 9 (caps p) (mkCap 0 0 0))) 0) as [Y|Y]; [|reflexivity].
      rewrite Y in B9. discriminate.
    - rewrite m9, UP, andb_false_r. cbn [orb base_key]. rewrite SC, SP, SK. reflexivity. }
  intros e1 e2 T1 T2 X2. destruct (shake_all c2 p2 e1 e2 MS T1 T2 X2) as (a1 & D1 & a2 & w1 & D2 & G).
  exists a1. split; [exact D1|]. exists a2, w1. split; [exact D2|]. intros e3 H3. destruct (G e3 H3) as (p3 & w2 & D3 & G3).
  exists p3, w2. split; [exact D3|]. intros e4 H4. destruct (G3 e4 H4) as (c3 & D4 & G4). exists c3, []. split; [exact D4|].
  assert (RCa : cp_reach a1) by exact (cp_reach_by c2 (Update e1) a1 [] RC2 T1 D1).
  assert (RCb : cp_reach a2) by exact (cp_reach_by a1 (Update e2) a2 _ RCa T2 D2).
  assert (RC3 : cp_reach c3) by exact (cp_reach_by a2 (Update e4) c3 _ RCb (proj1 H4) D4).
  assert (RP3 : pd_reach p3) by exact (pd_reach_by p2 (Refresh e3) p3 _ RP2 (proj1 (proj2 H3)) D3).
  clear D1 D2 D3 D4 G G3 T1 T2 X2 H3 H4 e1 e2 e3 e4 a1 a2 w1 w2 RCa RCb.
  apply (round_mono c3 p3 (fun c6 p6 _ => in_step c6 p6 /\ quiet c6 /\ quiet p6 /\ state c6 = (if use_scbkd (fl c2) then SSetScbk else SOnline) /\ after_shake c2 p2 c6 p6)); [|exact RC3|exact RP3|].
  2:{ intros x5 x6 T5 T6 X6. destruct (G4 x5 x6 T5 T6 X6) as (b1 & D1 & b2 & w1 & D2 & G). exists b1. split; [exact D1|]. exists b2, w1. split; [exact D2|]. intros e8 H8. destruct (G e8 H8) as (p6 & w4 & D3 & G5).
      exists p6, w4. split; [exact D3|]. intros e9 H9. destruct (G5 e9 H9) as (c6 & o & D4 & KK). exists c6, o. split; [exact D4|exact KK]. }
  intros c4 p4 _ RC4 RP4 (IS & Q4 & Q5 & S4 & [AK [PH4 RO4] AD [AC AP] AI _ _]). split; [|exact IS]. rewrite m9 in S4.
  assert (CQ4 : cmdq c4 = cmdq c2) by (unfold ckeep in AK; congruence). assert (FI4 : file c4 = file c2) by (unfold ckeep in AK; congruence). assert (PR4 : peer_rx c4 = peer_rx c2) by (unfold ckeep in AK; congruence).
  assert (CA4 : caps c4 = caps c2) by (unfold ckeep in AK; congruence).
  assert (HP4 : has_cb p4 = has_cb p2) by (unfold dkeep in AD; congruence). assert (EQ4 : evq p4 = evq p2) by (unfold dkeep in AD; congruence).
  assert (NC4 : 95 <= tx_buf_size c4) by (rewrite (tx_size_eq c4 c2 PR4); exact NC2).
  destruct (is_act _ _ IS) as [Y1 Y2].
  constructor.
  - constructor; [exact RC4|exact PH4|split; [exact (is_ends _ _ IS)|right; exact IS]|split; assumption|]. split; [lia|rewrite (tx_size_eq p4 p2 AP); exact NP2].
  - exact RP4.
  - split; [exact S4|split; [exact RO4|exact (quiet_event c4 RC4 S4)]].
  - unfold no_transfer in *. rewrite FI4, FI. exact NT.
  - left. exact Y1.
  - right. exact Y2.
  - exact NC4.
  - rewrite HP4, HP. exact HC.
  - rewrite CQ4, CQ. eapply Forall_impl; [|exact GC]. intros k (x1 & x2 & x3). split; [exact x1|split; [exact x2|rewrite AC, e6; exact x3]].
  - rewrite Y1, EQ4, EQ. apply (meet_events true c p c4 GE L17); [rewrite CA4; exact m3|exact (eq_trans AC e6)|exact (eq_trans AP e7)].
Qed.

(* --- a panel that gave up tries again --- *)
Lemma off_reset c : let q := set_state SInit (state_reset true (set_cmd_id (-1) c)) in
  rq_offline q = rq_offline c /\ file q = file c /\ address q = address c /\ caps q = caps c /\ peer_rx q = peer_rx c /\ cmdq q = cmdq c /\ fl q = fl c /\ sc q = sc c /\ rb q = rb c /\ pbuf q = pbuf c /\ plen q = 0 /\ pblen q = 0 /\ starting q.
Proof. repeat split. Qed.
Lemma off_again e c : state c = SOffline -> phy_state c = PIdle -> e_now e - tstamp c > wait_ms c -> cp_do (Update e) c = Ok (set_state SInit (state_reset true (set_cmd_id (-1) c)), []).
Proof.
  intros St Ph T. unfold cp_do, state_update, phy_running. rewrite Ph, St. cbv iota zeta. unfold after_phy, state_get_cmd. rewrite Ph, St. cbv iota. cbn [bind]. cbv zeta.
  change (-1 >? 0) with false. cbv iota. unfold finish_update, next_ok_state. change (state (set_cmd_id (-1) c)) with (state c). rewrite St. cbv iota.
  change (tstamp (set_cmd_id (-1) c)) with (tstamp c). change (wait_ms (set_cmd_id (-1) c)) with (wait_ms c). replace (e_now e - tstamp c >? wait_ms c) with true by lia.
  cbn [bind]. unfold do_requests. change (state (set_cmd_id (-1) c)) with (state c). rewrite St. cbn [st_eqb orb]. reflexivity.
Qed.
Lemma off_meets b e c p : pair b c p -> state c = SOffline -> phy_state c = PIdle -> env_typed e -> e_now e - tstamp c > wait_ms c ->
  exists q, cp_do (Update e) c = Ok (q, []) /\ may_meet b q p /\ (same_key c p -> same_key q p) /\ (no_key c p -> no_key q p).
Proof.
  intros [[RC RP] [RO NT] Ad (Qc & Qp & Bc) L17 [N1 N2] D HC GC GE] St Ph ET T. pose proof (off_again e c St Ph T) as DO.
  destruct (off_reset c) as (f1 & f2 & f3 & f4 & f5 & f6 & f7 & f8 & f9 & f10 & f11 & f12 & f13).
  set (q := set_state SInit (state_reset true (set_cmd_id (-1) c))) in *. clearbody q. exists q. split; [exact DO|].
  split; [split; [exact f13|constructor]|].
  - split; [exact (cp_reach_by c (Update e) q _ RC ET DO)|exact RP].
  - split; [rewrite f1; exact RO|]. unfold no_transfer in *. rewrite f2. exact NT.
  - rewrite f3. exact Ad.
  - split; [|auto]. destruct Qc as (a1 & a2 & a3 & a4 & a5 & a6). unfold quiet. rewrite f9, f10. exact (conj f12 (conj f11 (conj a3 (conj a4 (conj a5 a6))))).
  - rewrite f4. exact L17.
  - rewrite (tx_size_eq q c f5). auto.
  - exact D.
  - exact HC.
  - rewrite f6. exact GC.
  - exact GE.
  - unfold same_key, no_key. rewrite f7, f8. auto.
Qed.

(* --- just set up --- *)
Lemma fresh_pair b k n ic c n' ip p : cp_info_typed ic -> new_pd k n ic = Some c -> info_typed ip -> pd_setup ip n' = Some p -> i_address ip = i_address ic -> 0 <= i_address ic < 127 ->
  may_meet b c (pd_set_command_callback true p).
Proof.
  intros TC NC TP NP EA AD.
  assert (RP : pd_runs ip n' [mkEntry p (SetCallback true) []] (pd_set_command_callback true p)).
  { apply (runs_step ip n' [] p (SetCallback true)); [constructor; assumption|exact Logic.I|reflexivity]. }
  assert (RC : cp_reach c) by (exists k, n, ic, []; constructor; assumption).
  assert (BZ : bytes (pbuf pd_zero)) by (apply Forall_forall; intros x X; apply repeat_spec in X; subst x; split; [lia|reflexivity]).
  assert (QZ : quiet pd_zero) by (unfold quiet; repeat (split; [first [reflexivity | vm_compute; repeat split; lia | vm_compute; repeat split; discriminate]|]); exact BZ).
  assert (C10 : nth 10 (caps (pd_set_command_callback true p)) (mkCap 0 0 0) = mkCap 10 0 1).
  { pose proof (runs_caps ip n' _ _ 10 RP ltac:(lia)) as H. change (Z.to_nat 10) with 10%nat in H. rewrite H. unfold given_caps. cbn [rev app flat_map en_call]. unfold last_cap. rewrite rev_app_distr. reflexivity. }
  assert (FC : starting c /\ rq_offline c = false /\ file c = None /\ address c = i_address ic /\ quiet c /\ length (caps c) = 17%nat /\ peer_rx c = 0 /\ cmdq c = []).
  { unfold new_pd in NC. destruct (i_scbk ic); [|destruct (enforce _); [discriminate|]]; injection NC as <-; repeat split; try apply QZ. }
  assert (FP : address p = i_address ip /\ quiet p /\ broadcast (fl p) = false /\ peer_rx p = 0 /\ evq p = []).
  { unfold pd_setup in NP. destruct (i_scbk ip); [|destruct (enforce _); [discriminate|]]; injection NP as <-; repeat split; try apply QZ. }
  destruct FC as (c1 & c2 & c3 & c4 & c5 & c6 & c7 & c8). destruct FP as (p1 & p2 & p3 & p4 & p5).
  split; [exact c1|]. constructor.
  - split; [exact RC|eexists _, _, _; exact RP].
  - split; [exact c2|]. unfold no_transfer. rewrite c3. exact Logic.I.
  - change (address (pd_set_command_callback true p)) with (address p). rewrite p1, c4, EA. auto.
  - split; [exact c5|split; [exact p2|exact p3]].
  - exact c6.
  - unfold tx_buf_size. change (peer_rx (pd_set_command_callback true p)) with (peer_rx p). rewrite c7, p4. change (69 <= 256 /\ 69 <= 256). lia.
  - unfold declared, declared_size. rewrite C10. cbn [c_fc c_comp c_num]. split; [reflexivity|lia].
  - reflexivity.
  - rewrite c8. constructor.
  - change (evq (pd_set_command_callback true p)) with (evq p). rewrite p5. constructor.
Qed.
Lemma fresh_key k n ic c n' ip p key : new_pd k n ic = Some c -> info_typed ip -> pd_setup ip n' = Some p -> i_scbk ic = Some key -> i_scbk ip = Some key ->
  same_key c (pd_set_command_callback true p).
Proof.
  intros NC TP NP KC KP.
  assert (C9 : nth 9 (caps p) (mkCap 0 0 0) = mkCap 9 1 0).
  { pose proof (runs_caps ip n' [] p 9 (runs_start _ _ _ TP NP) ltac:(lia)) as H. change (Z.to_nat 9) with 9%nat in H. rewrite H. unfold given_caps. cbn [rev app flat_map]. unfold last_cap. rewrite rev_app_distr. reflexivity. }
  unfold same_key, declared. change (caps (pd_set_command_callback true p)) with (caps p). rewrite C9.
  unfold new_pd in NC. rewrite KC in NC. injection NC as <-. unfold pd_setup in NP. rewrite KP in NP. injection NP as <-. repeat split.
Qed.
Lemma fresh_nokey k n ic c n' ip p : new_pd k n ic = Some c -> pd_setup ip n' = Some p -> i_scbk ic = None -> i_scbk ip = None -> no_key c (pd_set_command_callback true p).
Proof.
  intros NC NP KC KP. unfold new_pd in NC. rewrite KC in NC. unfold pd_setup in NP. rewrite KP in NP.
  destruct (enforce (fl (set_chan_id _ _))) eqn:E1 in NC; [discriminate|]. destruct (enforce _) eqn:E2 in NP; [discriminate|]. injection NC as <-. injection NP as <-. split; [reflexivity|]. split; [exact E1|exact E2].
Qed.
