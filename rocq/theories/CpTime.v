(** CP: retries, time outs and the offline period of a PD entry. *)
From Verif Require Import Base ListLemmas Crc SpecCrc CrcProofs CrcBurst Aes AesProofs Rb RbProofs
  Types Sc ScProofs Phy PhyCheck File Pd Cp SpecRx SpecFrame SpecSec SpecSession RxProofs PdRx PdCore PhyTx PdTx PdReply
  PdStep PdRun PdWire PdFwd PdSec PdHist2 WireSec CpCtx SpecPd SpecCp SpecCpRun CpTx CpRx CpStep CpInv CpEdge CpFacts CpSum CpWire CpHist.
From Coq Require Import ZifyBool ZifyNat.
Ltac Zify.zify_post_hook ::= Z.div_mod_to_equations.
Local Opaque aes_ecb_encrypt aes_cbc_encrypt aes_cbc_decrypt mac_of RB_SIZE osdp_mac enc1 cap_entries osdp_encrypt encrypt_data.

(** * The offline period *)

Lemma offline_idle p : cpi p -> state p = SOffline -> phy_state p = PIdle /\ phy_running p = false.
Proof.
  intros I S. destruct (phy_running p) eqn:R.
  - pose proof (ci_cmd p I R) as C. unfold cmd_of_state in C. rewrite S in C. destruct C.
  - destruct (ci_phy p I); [auto|congruence].
Qed.

Lemma finish_idle e p ok o0 q rc o : finish_update e (state p) p ok o0 = Ok (q, rc, o) -> fin_pre p -> bytes (e_rand e) -> phy_state q = PIdle.
Proof.
  intros F P B. unfold finish_update in F.
  destruct (if ok then next_ok_state e p else Ok (next_err_state e p)) as [[[p1 n1] o1]| |] eqn:N; try discriminate. rewrite bind_Ok in F.
  pose proof (next_fx_ok e p ok p1 n1 o1 N P) as [a1 a2 a3 a4 a5 a6 a7 a8 a9].
  destruct (do_requests e p1 n1) as [[p2 n2] o2] eqn:D. destruct (do_requests_fx e p1 n1 p2 n2 o2 D a1) as [b1 b2 b3 b4 b5 b6 b7 b8].
  assert (P2 : phy_state p2 = PIdle) by (apply b2; rewrite a2; apply P).
  destruct (st_eqb (state p) n2); [injection F as <- <- <-; auto|].
  destruct (state_change e p2 n2) as [p3 o3] eqn:SC. injection F as <- <- <-.
  apply (state_change_fx e p2 n2 p3 o3 SC b1 B). auto.
Qed.

(* waiting time of an offline entry; nothing is left to hand over while online *)
Record tinv (p : pd) : Prop := {
  ti_wait : state p = SOffline -> wait_ms p = 300000;
  ti_ev : state p = SOnline -> rq_event p = false /\ rq_offline p = false;
  ti_reply : phy_state p = PReplyWait -> reply_id p = 0;
  ti_retry : phy_state p = PWait -> wait_ms p = 800
}.

Lemma ended_idle e cur ok p1 o1 q o : ended e cur ok p1 o1 q o -> cur = state p1 -> cbinv p1 -> 0 <= retry p1 <= 8 ->
  (sc_active (fl p1) = true -> state p1 = SOnline \/ state p1 = SSetScbk) -> rq_restart p1 = false -> bytes (e_rand e) -> phy_state q = PIdle.
Proof.
  intros (p2 & st & o2 & C & F) -> I R A RQ B.
  destruct (check_reply_fx e p1 p2 st o2 C I RQ) as (c1 & c2 & c3 & c4 & c5 & c6 & c7 & c8).
  rewrite <- c4 in F. change (state p2) with (state (state_reset false p2)) in F.
  apply (finish_idle _ _ _ _ _ _ _ F); auto. constructor; simpl; auto.
  - apply cbinv_reset; auto.
  - lia.
  - rewrite c4. auto.
  - intros X. destruct (c7 X) as (x1 & x2 & _). split; [congruence|auto].
Qed.

(* the refresh left the exchange running *)
Inductive went_on (e : env) (p q : pd) (o : list out) : Prop :=
| GO_hold : phy_state p = PWait -> e_now e - phy_tstamp p < wait_ms p -> q = p -> o = [] -> went_on e p q o
| GO_pick p1 c : phy_state p = PIdle -> picked e p p1 c o -> 0 < c -> q = set_phy_state PSend (set_cmd_id c p1) -> no_tx o -> went_on e p q o
| GO_sent p1 : sending e p -> cmd_sent e (set_phy_state PSend p) p1 true o ->
    q = set_phy_tstamp (e_now e) (set_phy_state PReplyWait (set_reply_id 0 (state_reset false p1))) -> went_on e p q o
| GO_wait : phy_state p = PReplyWait -> reply_case e p q CNoData [] -> e_now e - phy_tstamp p <= RESP_TOUT -> o = [] -> went_on e p q o
| GO_retry p1 : phy_state p = PReplyWait -> reply_case e p p1 CNoData [] -> RESP_TOUT < e_now e - phy_tstamp p ->
    retry p < 8 -> q = set_phy_tstamp (e_now e) (set_retry (retry p + 1) (set_phy_state PWait (set_wait_ms CMD_RETRY_WAIT p1))) -> o = [] -> went_on e p q o
| GO_busy p1 : phy_state p = PReplyWait -> reply_case e p p1 CRetry o ->
    q = set_phy_state PWait (set_wait_ms CMD_RETRY_WAIT (set_phy_tstamp (e_now e) p1)) -> no_tx o -> went_on e p q o.

(* every refresh either goes on or leaves the entry idle *)
Lemma upd_phases e p q rc o : cpi p -> env_typed e -> state_update e p = Ok (q, rc, o) ->
  (went_on e p q o /\ phy_running q = true) \/ phy_state q = PIdle.
Proof.
  intros I ET U. pose proof (cpi_case e p q rc o I ET U) as C. assert (I0 := I). destruct I as [i1 i2 i3 i4 i5 i6 i7 i8].
  assert (BR : bytes (e_rand e)) by apply ET.
  assert (RC : forall p1 r o1, phy_state p = PReplyWait -> reply_case e p p1 r o1 -> reply_fx e p p1 r o1).
  { intros p1 r o1 P R. destruct (i3 P) as (W & _ & S0). apply reply_case_fx; auto. }
  assert (EN : forall p1 r o1 ok x o2, phy_state p = PReplyWait -> reply_case e p p1 r o1 -> ended e (state p) ok (set_phy_state x p1) o1 q o2 -> phy_state q = PIdle).
  { intros p1 r o1 ok x o2 P R E. destruct (RC _ _ _ P R) as [c1 c2 c3 c4 c5 c6 c7 c8 c9 c10].
    destruct (wcore_fields _ _ c1) as (w1 & w2 & w3 & w4 & w5 & w6 & w7 & w8 & _).
    apply (ended_idle _ _ _ _ _ _ _ E); simpl; auto; try congruence; try lia.
    - apply cbinv_phy; auto.
    - rewrite w2. auto. }
  destruct C as [P T -> | p1 c o P G C0 -> | p1 c o1 o P G C0 F | p1 o S CS -> | p1 o1 o S CS E | P R T | p1 P R T L -> | p1 o P R T L E
     | p1 o P R -> | p1 r o1 o P R K E | p1 r o1 o P R K E ].
  - left. split; [apply GO_hold; auto|]. unfold phy_running. rewrite P. reflexivity.
  - left. split; [|reflexivity]. eapply GO_pick; eauto. { apply get_cmd_picked; auto. } destruct (get_cmd_fx e p p1 c o G i1). auto.
  - right. destruct (get_cmd_fx e p p1 c o1 G i1) as [g1 g2 g3 g4 g5 g6 g7 g8 g9 g10].
    rewrite <- g4 in F. change (state p1) with (state (set_cmd_id c p1)) in F.
    apply (finish_idle _ _ _ _ _ _ _ F); auto. constructor; simpl; [cbgi g1 | congruence | rewrite g3; exact i4 | rewrite g4, g6; auto | congruence].
  - left. split; [eapply GO_sent; eauto|reflexivity].
  - right. assert (CB : cbinv (set_phy_state PSend p)) by (apply cbinv_phy; auto).
    destruct (cmd_sent_fx e _ _ _ _ CB CS) as [x1 x2 x3 x4 x5].
    destruct (tcore_fields _ _ x1) as (t1 & t2 & t3 & t4 & t5 & t6 & t7 & t8 & t9 & t10 & t11 & t12 & t13 & t14 & t15 & t16 & t17 & t18 & t19 & t20 & t21 & _).
    simpl in t2, t4, t9, t21. apply (ended_idle _ _ _ _ _ _ _ E); simpl; auto; try congruence; try lia.
    + apply cbinv_phy; auto.
    + rewrite t21, t2. auto.
  - left. destruct (RC _ _ _ P R) as [c1 c2 c3 c4 c5 c6 c7 c8 c9 c10]. destruct (wcore_fields _ _ c1) as (w1 & w2 & w3 & w4 & w5 & w6 & w7 & w8 & _).
    split; [|unfold phy_running; rewrite w3, P; reflexivity]. apply GO_wait; auto. congruence.
  - left. destruct (RC _ _ _ P R) as [c1 c2 c3 c4 c5 c6 c7 c8 c9 c10]. destruct (wcore_fields _ _ c1) as (w1 & w2 & w3 & w4 & w5 & w6 & w7 & w8 & _).
    split; [|reflexivity]. eapply GO_retry; eauto; congruence.
  - right. eauto.
  - left. split; [|reflexivity]. eapply GO_busy; eauto. destruct (RC _ _ _ P R); auto.
  - right. destruct (stamped_fx e r p1) as (a & b & ST). rewrite ST in E.
    destruct (RC _ _ _ P R) as [c1 c2 c3 c4 c5 c6 c7 c8 c9 c10].
    destruct (wcore_fields _ _ c1) as (w1 & w2 & w3 & w4 & w5 & w6 & w7 & w8 & _).
    apply (ended_idle _ _ _ _ _ _ _ E); simpl; auto; try congruence; try lia.
    + apply cbinv_phy. cbgi c2.
    + rewrite w2. auto.
  - right. eauto.
Qed.

Lemma resp_ev e p0 l q r o : decode_response e p0 l = Ok (q, r, o) -> 1 <= zlen l -> r = CRetry ->
  rq_event q = rq_event p0 /\ rq_offline q = rq_offline p0 /\ eph q = eph p0.
Proof.
  intros D L ->. destruct (decode_response_rel _ _ _ _ _ _ D L) as [a1 a2 a3 a4 a5 a6 a7 a8 a9 a10].
  destruct a7 as [[E1 E2]|(X & _)]; [|discriminate]. assert (G : getb l 0 = 121) by (destruct a3 as [X|[X|[X|X]]]; try discriminate; tauto).
  destruct a8 as (E3 & _); [lia|]. auto.
Qed.

Lemma busy_ev e p p1 o : cpi p -> phy_state p = PReplyWait -> reply_case e p p1 CRetry o ->
  rq_event p1 = rq_event p /\ rq_offline p1 = rq_offline p.
Proof.
  intros I P R. remember CRetry as r eqn:ER. destruct R as [k N K S|k N K C|pf r o G S F]; try discriminate. subst r.
  pose proof G as (RX & W1 & _ & _ & PL & _).
  assert (E1 : rq_event pf = rq_event p) by exact (f_equal (fun x => rq_event x) RX).
  assert (E2 : rq_offline pf = rq_offline p) by exact (f_equal (fun x => rq_offline x) RX).
  assert (I1 : cbinv pf) by (eapply cbinv_rx; eauto; [apply (ci_b p I)|apply W1]).
  remember CRetry as r eqn:ER. destruct F as [B ->|A B C ->|A B C D ->|k A B C D H|p2 l r o A B C D H1 H2]; try discriminate.
  - auto.
  - destruct (got_full _ _ _ G) as (FU & _).
    destruct (cp_decode_packet _ _ _ I1 ltac:(destruct FU as (x & y & _); lia) H1) as (Ip2 & DC & _ & _ & _ & BL & NE & L & _).
    assert (L1 : 1 <= zlen l) by (destruct l; [congruence|]; rewrite zlen_cons; pose proof (zlen_nonneg l); lia).
    destruct (resp_ev e p2 l p1 r o H2 L1 ER) as (X1 & X2 & _).
    assert (E3 : rq_event p2 = rq_event pf) by exact (f_equal (fun x => rq_event x) DC).
    assert (E4 : rq_offline p2 = rq_offline pf) by exact (f_equal (fun x => rq_offline x) DC). split; congruence.
Qed.

Lemma nodata_ev e p p1 : cpi p -> phy_state p = PReplyWait -> reply_case e p p1 CNoData [] -> rxcore p1 = rxcore p /\ exists k, no_frame e p p1 k.
Proof.
  intros I P R. remember CNoData as r eqn:ER. remember ([] : list out) as oo eqn:EO. destruct R as [k N K S|k N K C|pf r o G S F]; try discriminate.
  - split; [apply N|exists k; auto].
  - exfalso. subst r. pose proof G as (RX & W1 & _ & _ & PL & _).
    assert (I1 : cbinv pf) by (eapply cbinv_rx; eauto; [apply (ci_b p I)|apply W1]).
    destruct (ci_rx p I P) as (_ & _ & SQ).
    remember CNoData as r eqn:ER. destruct F as [B ->|A B C ->|A B C D ->|k A B C D H|p2 l r o A B C D H1 H2]; try discriminate.
    destruct (got_full _ _ _ G) as (FU & _).
    destruct (cp_decode_packet _ _ _ I1 ltac:(destruct FU as (x & y & _); lia) H1) as (Ip2 & DC & _ & _ & _ & BL & NE & L & _).
    assert (L1 : 1 <= zlen l) by (destruct l; [congruence|]; rewrite zlen_cons; pose proof (zlen_nonneg l); lia).
    destruct (rr_kind _ _ _ _ _ _ (decode_response_rel _ _ _ _ _ _ H2 L1)) as [X|[X|[[X _]|X]]]; congruence.
Qed.

Lemma tinv_go e p q o : cpi p -> tinv p -> went_on e p q o -> cpi q -> tinv q.
Proof.
  intros I T G IQ. destruct T as [t1 t2 t3 t4].
  destruct G as [P T -> O | p1 c P K C0 -> N | p1 S CS -> | P R T O | p1 P R T L -> O | p1 P R -> N].
  - constructor; auto.
  - assert (Y : rq_event p1 = rq_event p /\ rq_offline p1 = rq_offline p /\ state p1 = state p).
    { destruct K as [k cq K1 K2 -> K3 K4|f K1 K2 -> K3|f K1 K2 -> K3 K4|f K1 K2 -> K3 K4|K1 -> K2]; auto. }
    destruct Y as (Y1 & Y2 & Y3). constructor; simpl; try discriminate.
    + intros SQQ. destruct (offline_idle _ IQ SQQ) as [X _]. discriminate.
    + rewrite Y1, Y2, Y3. auto.
  - assert (CB : cbinv (set_phy_state PSend p)) by (apply cbinv_phy; apply I).
    destruct (cmd_sent_fx e _ _ _ _ CB CS) as [x1 x2 x3 x4 x5].
    destruct (tcore_fields _ _ x1) as (y1 & y2 & y3 & y4 & y5 & y6 & y7 & y8 & y9 & y10 & y11 & _). simpl in *.
    constructor; simpl; try discriminate; auto.
    + intros SQQ. destruct (offline_idle _ IQ SQQ) as [X _]. discriminate.
    + rewrite y10, y11, y2. auto.
  - destruct (nodata_ev e p q I P R) as (RX & _).
    assert (E1 : rq_event q = rq_event p) by exact (f_equal (fun x => rq_event x) RX).
    assert (E2 : rq_offline q = rq_offline p) by exact (f_equal (fun x => rq_offline x) RX).
    assert (E3 : state q = state p) by exact (f_equal (fun x => state x) RX).
    assert (E4 : reply_id q = reply_id p) by exact (f_equal (fun x => reply_id x) RX).
    assert (E5 : phy_state q = phy_state p) by exact (f_equal (fun x => phy_state x) RX).
    constructor; rewrite ?E1, ?E2, ?E3, ?E4, ?E5; auto; try congruence.
    intros SQQ. rewrite <- E3 in SQQ. destruct (offline_idle _ IQ SQQ) as [X _]. congruence.
  - destruct (nodata_ev e p p1 I P R) as (RX & _).
    assert (E1 : rq_event p1 = rq_event p) by exact (f_equal (fun x => rq_event x) RX).
    assert (E2 : rq_offline p1 = rq_offline p) by exact (f_equal (fun x => rq_offline x) RX).
    assert (E3 : state p1 = state p) by exact (f_equal (fun x => state x) RX).
    constructor; simpl; try discriminate; auto.
    + intros SQQ. destruct (offline_idle _ IQ SQQ) as [X _]. discriminate.
    + rewrite E1, E2, E3. auto.
  - destruct (busy_ev e p p1 o I P R) as [E1 E2]. destruct (ci_rx p I P) as (W & _ & S0).
    destruct (reply_case_fx e p p1 _ o (ci_b p I) S0 W R) as [c1 _ _ _ _ _ _ _ _ _]. destruct (wcore_fields _ _ c1) as (w1 & w2 & _).
    constructor; simpl; try discriminate; auto.
    + intros SQQ. destruct (offline_idle _ IQ SQQ) as [X _]. discriminate.
    + rewrite E1, E2, w2. auto.
Qed.

Lemma fin_wait e p1 q ok : fin_rel e p1 q ok -> (state p1 = SOffline -> wait_ms p1 = 300000) -> (state q = SOffline -> wait_ms q = 300000) /\
  (state q = SOnline -> rq_event q = false /\ rq_offline q = false).
Proof.
  intros [f1 f2 f3 f4 f5 f6 f7 f8 f9 f10] W. split.
  - intros S. unfold time_move in f6. rewrite S in f6. simpl in f6. destruct (state p1); simpl in f6; destruct f6; auto. rewrite H0. auto.
  - intros S. split.
    + destruct (rq_event q); auto. destruct (f10 eq_refl) as (_ & _ & X). congruence.
    + destruct (rq_offline q); auto. destruct (f9 eq_refl) as (_ & _ & X). congruence.
Qed.

Lemma upd_tinv e p q rc o : cpi p -> tinv p -> env_typed e -> state_update e p = Ok (q, rc, o) -> tinv q.
Proof.
  intros I T ET U. assert (IQ : cpi q) by (eapply upd_inv; eauto; eapply cpi_case; eauto).
  destruct (upd_phases e p q rc o I ET U) as [[G _] | PQ]; [exact (tinv_go e p q o I T G IQ)|].
  destruct (upd_summary e p q rc o I ET U) as [H | p1 RE X PI FP F | p1 p3 ok st RE RU X C FP F].
  - exfalso. pose proof (hd_run _ _ _ H) as Y. unfold phy_running in Y. rewrite PQ in Y. discriminate.
  - destruct (fin_wait e p1 q true F) as [A B]. { rewrite (px_state _ _ X), (px_wait _ _ X). apply T. }
    constructor; auto; congruence.
  - destruct (checked_same _ _ _ C) as (d1 & d2 & d3 & d4 & d5 & d6 & d7 & _).
    destruct (fin_wait e p3 q (ok && st) F) as [A B]. { rewrite d1, d7, (px_state _ _ X), (px_wait _ _ X). apply T. }
    constructor; auto; congruence.
Qed.

Lemma cp_runs_tinv k n i h p : cp_runs k n i h p -> tinv p.
Proof.
  induction 1 as [p T N|h p c q o R IH CT D].
  - unfold new_pd in N. destruct (i_scbk i); [|destruct (enforce _); [discriminate|]]; injection N as <-; constructor; discriminate || auto.
  - pose proof (cp_runs_inv _ _ _ _ _ R) as I. destruct (is_update c) eqn:UC.
    + destruct c as [e| | | | |]; try discriminate. destruct (cp_do_update e p q o D) as (rc & U). eapply upd_tinv; eauto.
    + destruct (other_eq c p q o UC D) as [E _].
      destruct (ucore_fields _ _ E) as (u1 & u2 & u3 & u4 & u5 & u6 & u7 & u8 & u9 & u10 & u11 & u12 & u13 & u14 & u15 & _).
      destruct IH as [t1 t2 t3 t4]. constructor; rewrite ?u1, ?u2, ?u5, ?u12, ?u14, ?u15; auto.
Qed.

Lemma cp_reach_tinv p : cp_reach p -> tinv p.
Proof. intros (k & n & i & h & R). eapply cp_runs_tinv; eauto. Qed.

Lemma went_state e p q o : cpi p -> env_typed e -> went_on e p q o -> state q = state p.
Proof.
  intros I ET G. destruct G as [P T E O | p1 c P K C0 E N | p1 S CS E | P R T O | p1 P R T L E O | p1 P R E N].
  - rewrite E. reflexivity.
  - rewrite E. simpl. destruct K as [k cq K1 K2 E1 K3 K4|f K1 K2 E1 K3|f K1 K2 E1 K3 K4|f K1 K2 E1 K3 K4|K1 E1 K2]; rewrite E1; reflexivity.
  - rewrite E. simpl. destruct (sent_pre e p p1 true o I S (proj2 (proj2 ET)) CS) as [X _]. apply (px_state _ _ X).
  - destruct (reply_pre e p q _ _ I P R). auto.
  - rewrite E. simpl. destruct (reply_pre e p p1 _ _ I P R). auto.
  - rewrite E. simpl. destruct (reply_pre e p p1 _ _ I P R). auto.
Qed.

(* one refresh of an offline entry *)
Lemma offline_step e p q rc o : cpi p -> tinv p -> env_typed e -> state p = SOffline -> state_update e p = Ok (q, rc, o) ->
  no_tx o /\ ((e_now e - tstamp p <= 300000 /\ state q = SOffline /\ tstamp q = tstamp p) \/
  (300000 < e_now e - tstamp p /\ state q = SInit /\ seqn q = -1 /\ retry q = 0 /\ phy_state q = PIdle)).
Proof.
  intros I T ET S U. destruct (offline_idle p I S) as [PI NR].
  assert (IQ : cpi q) by (eapply upd_inv; eauto; eapply cpi_case; eauto).
  split. { intros d IN. destruct (upd_tx e p q rc o d I ET U IN) as (_ & R & _). congruence. }
  destruct (upd_summary e p q rc o I ET U) as [H | p1 RE X PI1 FP F | p1 p3 ok st RE RU X C FP F].
  - exfalso. assert (SQ : state q = SOffline) by (rewrite (hd_state _ _ _ H); auto).
    destruct (offline_idle q IQ SQ) as [_ Y]. pose proof (hd_run _ _ _ H). congruence.
  - destruct (idle_reason e p p1 true RE PI) as (_ & TS & _). 
    destruct F as [f1 f2 f3 f4 f5 f6 f7 f8 f9 f10]. unfold edge_ok, time_move, seq_move in *. rewrite (px_state _ _ X), S, TS, (px_wait _ _ X), (ti_wait p T S) in *.
    destruct (state q) eqn:SQ; try tauto; simpl in f6.
    + right. split; [lia|]. split; auto. destruct f5 as [(_ & _ & Y)|(Y1 & Y2 & _)]; [congruence|]. split; auto. split; auto.
      destruct (ci_phy q IQ) as [Y|Y]; auto. destruct (upd_phases e p q rc o I ET U) as [[G _]|Y2']; auto.
      exfalso. pose proof (went_state e p q o I ET G). congruence.
    + left. split; [destruct f2 as [Y|Y]; [discriminate|lia]|]. split; [auto|]. tauto.
  - congruence.
Qed.

(* the entry turns offline: the moment is noted *)
Lemma goes_offline e p q rc o : cpi p -> env_typed e -> state_update e p = Ok (q, rc, o) -> state p <> SOffline -> state q = SOffline ->
  tstamp q = e_now e /\ wait_ms q = 300000.
Proof.
  intros I ET U S SQ.
  destruct (upd_summary e p q rc o I ET U) as [H | p1 RE X PI1 FP F | p1 p3 ok st RE RU X C FP F].
  - exfalso. apply S. rewrite <- (hd_state _ _ _ H). auto.
  - destruct F as [f1 f2 f3 f4 f5 f6 f7 f8 f9 f10]. unfold time_move in f6. rewrite SQ, (px_state _ _ X) in f6. simpl in f6.
    destruct (state p); simpl in f6; tauto.
  - destruct F as [f1 f2 f3 f4 f5 f6 f7 f8 f9 f10]. unfold time_move in f6. rewrite SQ, (checked_state _ _ _ C), (px_state _ _ X) in f6. simpl in f6.
    destruct (state p); simpl in f6; tauto.
Qed.

(* C48 *)
Lemma seg_tinv p l q : cp_seg p l q -> cpi p -> tinv p -> tinv q.
Proof.
  induction 1 as [|p c q o l r T D S IH]; auto. intros I TI. apply IH; [eapply cp_do_inv; eauto|].
  destruct (is_update c) eqn:UC.
  - destruct c as [e| | | | |]; try discriminate. destruct (cp_do_update e p q o D) as (rc & U). eapply upd_tinv; eauto.
  - destruct (other_eq c p q o UC D) as [E _].
    destruct (ucore_fields _ _ E) as (u1 & u2 & u3 & u4 & u5 & u6 & u7 & u8 & u9 & u10 & u11 & u12 & u13 & u14 & u15 & _).
    destruct TI as [t1 t2 t3 t4]. constructor; rewrite ?u1, ?u2, ?u5, ?u12, ?u14, ?u15; auto.
Qed.

Definition before (t : Z) (en : cp_entry) : Prop := match ce_call en with Update e => e_now e <= t | _ => True end.

Lemma offline_quiet p l q : cp_seg p l q -> cpi p -> tinv p -> state p = SOffline -> Forall (before (tstamp p + 300000)) l ->
  Forall (fun en => ~ transmits en) l /\ state q = SOffline /\ tstamp q = tstamp p.
Proof.
  induction 1 as [|p c q o l r T D S IH]; intros I TI SO F; auto.
  inversion F as [|? ? F1 F2]; subst. assert (IQ : cpi q) by (eapply cp_do_inv; eauto).
  assert (TQ : tinv q). { apply (seg_tinv p [mkCe p c o] q); auto. econstructor; eauto. constructor. }
  destruct (is_update c) eqn:UC.
  - destruct c as [e| | | | |]; try discriminate. destruct (cp_do_update e p q o D) as (rc & U). unfold before in F1. simpl in F1.
    destruct (offline_step e p q rc o I TI T SO U) as [N [(X1 & X2 & X3)|(X1 & _)]]; [|lia].
    rewrite <- X3 in F2. destruct (IH IQ TQ X2 F2) as (Y1 & Y2 & Y3). split; [|split; congruence].
    constructor; auto. intros (d & X). apply (N d X).
  - destruct (other_eq c p q o UC D) as [E N]. destruct (ucore_fields _ _ E) as (u1 & u2 & u3 & u4 & u5 & u6 & _).
    rewrite <- u6 in F2. destruct (IH IQ TQ ltac:(congruence) F2) as (Y1 & Y2 & Y3). split; [|split; congruence].
    constructor; auto. intros (d & X). apply (N d X).
Qed.

(* after the offline period, up to the first transmission *)
Definition dormant (p : pd) : Prop :=
  state p = SOffline \/ (state p = SInit /\ seqn p = -1 /\ (phy_state p = PIdle \/ phy_state p = PSend)).

Lemma dormant_step e p q rc o : cpi p -> tinv p -> env_typed e -> dormant p -> state_update e p = Ok (q, rc, o) ->
  (dormant q /\ no_tx o) \/ (state p = SInit /\ seqn p = -1 /\ phy_state p = PSend /\ exists d, In (OTx d) o).
Proof.
  intros I T ET DO U. assert (IQ : cpi q) by (eapply upd_inv; eauto; eapply cpi_case; eauto).
  destruct DO as [S|(S & SN & P)].
  { left. destruct (offline_step e p q rc o I T ET S U) as [N [(_ & X & _)|(_ & X1 & X2 & X3 & X4)]]; split; auto; [left; auto|right; auto]. }
  destruct (upd_phases e p q rc o I ET U) as [[G R] | PQ].
  - destruct G as [P1 T1 E O | p1 c P1 K C0 E N | p1 SE CS E | P1 R1 T1 O | p1 P1 R1 T1 L E O | p1 P1 R1 E N];
      try (exfalso; clear - P P1; destruct P; congruence).
    + left. split; auto. right. rewrite E. simpl.
      destruct K as [k cq K1 K2 E1 K3 K4|f K1 K2 E1 K3|f K1 K2 E1 K3 K4|f K1 K2 E1 K3 K4|K1 E1 K2]; try (exfalso; clear - K1 S; congruence).
      rewrite E1. auto.
    + right. split; auto. split; auto. split. { clear - P SE. destruct SE as [X|[X _]], P; congruence. }
      clear E. destruct CS as [(_ & _ & X & _) | (TB & p2 & pay & ss & ob & B & RM & TY & CP & CR & NT & X)]; [discriminate|].
      destruct X as [(_ & _ & X & _) | (dd & _ & X)]; [discriminate|]. destruct X as (_ & _ & _ & _ & _ & _ & _ & X).
      destruct X as [(_ & X & _)|(_ & (ot & -> & SD) & _)]; [discriminate|].
      destruct SD as [(_ & SD & _)|[(k & _ & _ & SD & _)|(SD & _)]]; [discriminate|discriminate|rewrite SD].
      eexists. apply in_or_app. right; left; reflexivity.
  - destruct (upd_summary e p q rc o I ET U) as [H | p1 RE X PI1 FP F | p1 p3 ok st RE RU X C FP F].
    + exfalso. pose proof (hd_run _ _ _ H) as Y. unfold phy_running in Y. rewrite PQ in Y. discriminate.
    + exfalso. destruct (idle_reason e p p1 true RE PI1) as ([Y|Y] & _); congruence.
    + assert (PS : phy_state p = PSend) by (destruct P as [Y|Y]; auto; unfold phy_running in RU; rewrite Y in RU; discriminate).
      assert (OK : ok = false).
      { destruct RE as [Y _ _ _ _ _ | o1 _ _ | Y _ _ _ | r o1 Y _ _ | r o1 p0 Y _ _ _]; auto; congruence. }
      subst ok. destruct F as [_ f2 _ _ _ _ _ _ _ _]. unfold edge_ok in f2. rewrite (checked_state _ _ _ C), (px_state _ _ X), S in f2. simpl in f2.
      destruct (state q) eqn:SQ; try (destruct f2; fail); try discriminate.
      destruct (existsb (fun x => match x with OTx _ => true | _ => false end) o) eqn:EX.
      * right. repeat split; auto. apply existsb_exists in EX. destruct EX as (x & X1 & X2). destruct x; try discriminate. eauto.
      * left. split; [left; auto|]. intros d IN. assert (existsb (fun x => match x with OTx _ => true | _ => false end) o = true); [|congruence].
        apply existsb_exists. exists (OTx d). auto.
Qed.

(* nothing was sent in l; then something is *)
Lemma seg_dormant p l q : cp_seg p l q -> cpi p -> tinv p -> dormant p -> Forall (fun en => ~ transmits en) l -> dormant q.
Proof.
  induction 1 as [|p c q o l r T D S IH]; intros I TI DO F; auto.
  inversion F as [|? ? F1 F2]; subst. assert (IQ : cpi q) by (eapply cp_do_inv; eauto).
  assert (TQ : tinv q). { apply (seg_tinv p [mkCe p c o] q); auto. econstructor; eauto. constructor. }
  apply IH; auto. destruct (is_update c) eqn:UC.
  - destruct c as [e| | | | |]; try discriminate. destruct (cp_do_update e p q o D) as (rc & U).
    destruct (dormant_step e p q rc o I TI T DO U) as [[X _]|(_ & _ & _ & X)]; auto. exfalso. apply F1. exact X.
  - destruct (other_eq c p q o UC D) as [E N]. destruct (ucore_fields _ _ E) as (u1 & u2 & u3 & u4 & u5 & u6 & _).
    unfold dormant. rewrite u1, u2, u3. auto.
Qed.

Lemma dormant_tx p l q e rc o d r : cp_seg p l q -> cpi p -> tinv p -> dormant p -> Forall (fun en => ~ transmits en) l ->
  env_typed e -> state_update e q = Ok (r, rc, o) -> In (OTx d) o ->
  tx_is e q d /\ cmd_id q = 97 /\ seqn q = -1 /\ sc_active (fl q) = false.
Proof.
  intros S I TI DO F ET U IN. assert (IQ : cpi q) by (eapply seg_inv; eauto). assert (TQ : tinv q) by (eapply seg_tinv; eauto).
  pose proof (seg_dormant p l q S I TI DO F) as DQ. destruct (upd_tx e q r rc o d IQ ET U IN) as (_ & R & T).
  destruct (dormant_step e q r rc o IQ TQ ET DQ U) as [[_ N]|(X1 & X2 & X3 & _)]; [exfalso; apply (N d IN)|].
  split; auto. pose proof (ci_cmd q IQ R) as C. unfold cmd_of_state in C. rewrite X1 in C. split; auto. split; auto.
  destruct (sc_active (fl q)) eqn:A; auto. destruct (ci_act q IQ A); congruence.
Qed.
