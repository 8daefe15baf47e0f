(** CP: one call of the state machine of a PD entry, and the invariant it keeps. *)
From Verif Require Import Base ListLemmas Aes AesProofs Rb RbProofs
  Types Sc ScProofs Phy PhyCheck File Pd Cp SpecRx SpecFrame RxProofs PdRx PdCore PhyTx PdTx PdReply
  PdStep PdWire CpCtx SpecCp CpTx CpRx.
From Coq Require Import ZifyBool ZifyNat.
Ltac Zify.zify_post_hook ::= Z.div_mod_to_equations.
Local Opaque aes_ecb_encrypt aes_cbc_encrypt aes_cbc_decrypt mac_of RB_SIZE.

(* fields that receiving and decoding a reply never touches *)
Definition wcore (p : pd) : pd := rcore (dcore (rxcore (set_seqn 0 p))).

Lemma wcore_rx p q : rxcore q = rxcore p -> wcore q = wcore p.
Proof. intros H. change (wcore (rxcore q) = wcore (rxcore p)). rewrite H. reflexivity. Qed.
Lemma wcore_d p q : dcore q = dcore p -> wcore q = wcore p.
Proof. intros H. change (wcore (dcore q) = wcore (dcore p)). rewrite H. reflexivity. Qed.
Lemma wcore_r p q : rcore q = rcore p -> wcore q = wcore p.
Proof. intros H. change (wcore (rcore q) = wcore (rcore p)). rewrite H. reflexivity. Qed.

Lemma wcore_seqn v p : wcore (set_seqn v p) = wcore p.
Proof. reflexivity. Qed.
Lemma wcore_nak c p : wcore (nak c p) = wcore p.
Proof. apply wcore_d. reflexivity. Qed.

Lemma wcore_fields p q : wcore q = wcore p ->
  idx q = idx p /\ state q = state p /\ phy_state q = phy_state p /\ retry q = retry p /\ wait_ms q = wait_ms p /\
  sc_tstamp q = sc_tstamp p /\ phy_tstamp q = phy_tstamp p /\ rq_restart q = rq_restart p /\ cmd_id q = cmd_id p /\
  cmdq q = cmdq p /\ evq q = evq p /\ pool q = pool p /\ chan_id q = chan_id p /\ scbk (sc q) = scbk (sc p) /\
  c_mac (sc q) = c_mac (sc p) /\ cp_random (sc q) = cp_random (sc p) /\ cp_crypt (sc q) = cp_crypt (sc p) /\
  install (fl q) = install (fl p) /\ enforce (fl q) = enforce (fl p) /\ ign_unsol (fl q) = ign_unsol (fl p) /\
  notif (fl q) = notif (fl p) /\ has_scbk (fl q) = has_scbk (fl p) /\ sc_disabled (fl q) = sc_disabled (fl p) /\
  chn_shared (fl q) = chn_shared (fl p).
Proof.
  intros R. repeat split.
  - exact (f_equal (fun x => idx x) R).
  - exact (f_equal (fun x => state x) R).
  - exact (f_equal (fun x => phy_state x) R).
  - exact (f_equal (fun x => retry x) R).
  - exact (f_equal (fun x => wait_ms x) R).
  - exact (f_equal (fun x => sc_tstamp x) R).
  - exact (f_equal (fun x => phy_tstamp x) R).
  - exact (f_equal (fun x => rq_restart x) R).
  - exact (f_equal (fun x => cmd_id x) R).
  - exact (f_equal (fun x => cmdq x) R).
  - exact (f_equal (fun x => evq x) R).
  - exact (f_equal (fun x => pool x) R).
  - exact (f_equal (fun x => chan_id x) R).
  - exact (f_equal (fun x => scbk (sc x)) R).
  - exact (f_equal (fun x => c_mac (sc x)) R).
  - exact (f_equal (fun x => cp_random (sc x)) R).
  - exact (f_equal (fun x => cp_crypt (sc x)) R).
  - exact (f_equal (fun x => install (fl x)) R).
  - exact (f_equal (fun x => enforce (fl x)) R).
  - exact (f_equal (fun x => ign_unsol (fl x)) R).
  - exact (f_equal (fun x => notif (fl x)) R).
  - exact (f_equal (fun x => has_scbk (fl x)) R).
  - exact (f_equal (fun x => sc_disabled (fl x)) R).
  - exact (f_equal (fun x => chn_shared (fl x)) R).
Qed.
Global Opaque wcore.

(* use of the keys over the receipt of a reply *)
Record reply_fx (e : env) (p q : pd) (r : cperr) (o : list out) : Prop := {
  rx_core : wcore q = wcore p;
  rx_inv : cbinv q;
  rx_kind : r = CNone \/ r = CGeneric \/ r = CRetry \/ r = CUnknown \/ r = CNoData;
  rx_out : no_tx o;
  rx_scbkd : use_scbkd (fl q) = true -> use_scbkd (fl p) = true \/ install (fl p) = true;
  rx_scbkd1 : use_scbkd (fl p) = true -> use_scbkd (fl q) = true;
  rx_act : sc_active (fl q) = true -> sc_active (fl p) = true;
  rx_act1 : r <> CGeneric -> sc_active (fl q) = sc_active (fl p);
  rx_seq : (r = CRetry \/ seqn q = seqn p) /\ seqn p - 1 <= seqn q <= seqn p;
  rx_wait : r = CNoData -> rx_wf q /\ (rx_sync p -> rx_sync q) /\ reply_id q = reply_id p /\ eph q = eph p /\ rq_event q = rq_event p /\ o = []
}.

Lemma cbinv_seqn v p : cbinv p -> -1 <= v <= 3 -> cbinv (set_seqn v p).
Proof. intros [A B C D E F] V. constructor; auto. Qed.

Lemma rxcore_fields p q : rxcore q = rxcore p ->
  use_scbkd (fl q) = use_scbkd (fl p) /\ sc_active (fl q) = sc_active (fl p) /\ install (fl q) = install (fl p) /\
  reply_id q = reply_id p /\ eph q = eph p /\ seqn q = seqn p /\ address q = address p /\ sc q = sc p /\ cmd_id q = cmd_id p /\
  rq_event q = rq_event p.
Proof.
  intros R. repeat split.
  - exact (f_equal (fun x => use_scbkd (fl x)) R).
  - exact (f_equal (fun x => sc_active (fl x)) R).
  - exact (f_equal (fun x => install (fl x)) R).
  - exact (f_equal (fun x => reply_id x) R).
  - exact (f_equal (fun x => eph x) R).
  - exact (f_equal (fun x => seqn x) R).
  - exact (f_equal (fun x => address x) R).
  - exact (f_equal (fun x => sc x) R).
  - exact (f_equal (fun x => cmd_id x) R).
  - exact (f_equal (fun x => rq_event x) R).
Qed.

Lemma rcore_fields p q : rcore q = rcore p ->
  use_scbkd (fl q) = use_scbkd (fl p) /\ sc_active (fl q) = sc_active (fl p) /\ install (fl q) = install (fl p) /\
  seqn q = seqn p /\ cmd_id q = cmd_id p.
Proof.
  intros R. repeat split.
  - exact (f_equal (fun x => use_scbkd (fl x)) R).
  - exact (f_equal (fun x => sc_active (fl x)) R).
  - exact (f_equal (fun x => install (fl x)) R).
  - exact (f_equal (fun x => seqn x) R).
  - exact (f_equal (fun x => cmd_id x) R).
Qed.

Lemma dcore_fields p q : dcore q = dcore p ->
  install (fl q) = install (fl p) /\ seqn q = seqn p /\ cmd_id q = cmd_id p /\ address q = address p /\
  scbk (sc q) = scbk (sc p) /\ rq_event q = rq_event p.
Proof.
  intros R. repeat split.
  - exact (f_equal (fun x => install (fl x)) R).
  - exact (f_equal (fun x => seqn x) R).
  - exact (f_equal (fun x => cmd_id x) R).
  - exact (f_equal (fun x => address x) R).
  - exact (f_equal (fun x => scbk (sc x)) R).
  - exact (f_equal (fun x => rq_event x) R).
Qed.

Lemma frame_case_fx e p q r o : cbinv p -> 0 <= seqn p -> pblen p <= 256 -> frame_case e p q r o -> reply_fx e p q r o.
Proof.
  intros I SQ PL F. destruct F as [B ->|A B C ->|A B C D ->|k A B C D H|p2 l r o A B C D H1 H2].
  - constructor; try apply wcore_seqn; try apply wcore_nak; auto; try apply no_tx_nil; try tauto; try discriminate. split; [auto|lia].
  - constructor; try apply wcore_seqn; try apply wcore_nak; auto; try apply no_tx_nil; try tauto; try discriminate.
    + apply cbinv_seqn; auto. destruct I. lia.
    + split; [auto|simpl; lia].
  - constructor; try apply wcore_seqn; try apply wcore_nak; auto; try apply no_tx_nil; try discriminate.
    + apply cbinv_nak; auto. unfold byte; lia.
    + split; [auto|simpl; lia].
  - destruct (cp_decode_packet _ _ _ I PL H) as (I2 & DC & U1 & U2 & S1 & _).
    destruct (dcore_fields _ _ DC) as (d1 & d2 & d3 & _).
    constructor; auto; try apply no_tx_nil; try discriminate; try congruence.
    + apply wcore_d; auto.
    + split; [auto|lia].
  - destruct (cp_decode_packet _ _ _ I PL H1) as (I2 & DC & U1 & U2 & S1 & BL & NE & L & RI & EP & SA).
    destruct (dcore_fields _ _ DC) as (d1 & d2 & d3 & _).
    assert (L1 : 1 <= zlen l) by (destruct l; [congruence|]; rewrite zlen_cons; pose proof (zlen_nonneg l); lia).
    pose proof (decode_response_rel _ _ _ _ _ _ H2 L1) as R.
    pose proof (decode_response_inv _ _ _ _ _ _ H2 BL ltac:(lia) I2) as I3.
    pose proof (rr_core _ _ _ _ _ _ R) as RC. destruct (rcore_fields _ _ RC) as (r1 & r2 & r3 & r4 & r5).
    destruct R as [_ Id K O _ _ _ _ _ _].
    constructor; auto; rewrite ?r1, ?r2, ?r4; auto; try congruence.
    + rewrite (wcore_r _ _ RC). apply wcore_d; auto.
    + tauto.
    + split; [auto|lia].
    + intros ->. intuition discriminate.
Qed.

Lemma reply_case_fx e p q r o : cbinv p -> 0 <= seqn p -> rx_wf p -> reply_case e p q r o -> reply_fx e p q r o.
Proof.
  intros I SQ W H. destruct H as [k N K S|k N K C|p1 r o G S F].
  - destruct N as (R & W1 & _). destruct (rxcore_fields _ _ R) as (a1 & a2 & a3 & a4 & a5 & a6 & a7 & a8 & a9 & a10).
    constructor; rewrite ?a1, ?a2, ?a3; auto; try apply no_tx_nil; try congruence; try (apply wcore_rx; auto; fail).
    + eapply cbinv_rx; eauto. apply W1.
    + split; [auto|lia].
    + auto 10.
  - destruct N as (R & W1 & _). destruct (rxcore_fields _ _ R) as (a1 & a2 & a3 & a4 & a5 & a6 & a7 & a8 & a9 & a10).
    constructor; rewrite ?a1, ?a2, ?a3; auto; try apply no_tx_nil; try congruence; try (apply wcore_rx; auto; fail).
    + eapply cbinv_rx; eauto. apply W1.
    + split; [auto|lia].
  - pose proof G as (R & W1 & _ & P1 & P2 & _).
    destruct (rxcore_fields _ _ R) as (a1 & a2 & a3 & a4 & a5 & a6 & a7 & a8 & a9 & a10).
    assert (I1 : cbinv p1) by (eapply cbinv_rx; eauto; apply W1).
    destruct (frame_case_fx e p1 q r o I1 ltac:(lia) ltac:(lia) F) as [C1 C2 C3 C4 C5 C5' C6 C7 C8 C9].
    constructor; auto; rewrite <- ?a1, <- ?a2, <- ?a3, <- ?a6; auto.
    + rewrite C1. apply wcore_rx; auto.
    + intros ->. specialize (C9 eq_refl) as (X1 & X2 & X3 & X4 & X5 & X6). split; auto. split; auto.
      split; [congruence|split; [congruence|split; congruence]].
Qed.

(* fields that building and sending a command never touches *)
Definition tcore (p : pd) : pd :=
  set_pbuf [] (set_seqn 0 (set_has_mark false (set_file None (set_c_mac [] (set_cp_crypt [] p))))).

Lemma tcore_init p : tcore (cp_init p) = tcore p.
Proof. reflexivity. Qed.
Lemma tcore_file f p : tcore (set_file f p) = tcore p.
Proof. reflexivity. Qed.
Lemma tcore_crypt c p : tcore (set_cp_crypt c p) = tcore p.
Proof. reflexivity. Qed.
Lemma tcore_mac c p : tcore (set_c_mac c p) = tcore p.
Proof. reflexivity. Qed.
Lemma tcore_pbuf c p : tcore (set_pbuf c p) = tcore p.
Proof. reflexivity. Qed.

Lemma tcore_fields p q : tcore q = tcore p ->
  idx q = idx p /\ state q = state p /\ phy_state q = phy_state p /\ retry q = retry p /\ wait_ms q = wait_ms p /\
  tstamp q = tstamp p /\ sc_tstamp q = sc_tstamp p /\ phy_tstamp q = phy_tstamp p /\ rq_restart q = rq_restart p /\
  rq_event q = rq_event p /\ rq_offline q = rq_offline p /\ cmd_id q = cmd_id p /\ reply_id q = reply_id p /\
  cmdq q = cmdq p /\ pool q = pool p /\ chan_id q = chan_id p /\ eph q = eph p /\ address q = address p /\ rb q = rb p /\
  use_scbkd (fl q) = use_scbkd (fl p) /\ sc_active (fl q) = sc_active (fl p) /\ pd_mode (fl q) = pd_mode (fl p) /\
  skip_seq (fl q) = skip_seq (fl p) /\ enforce (fl q) = enforce (fl p) /\ install (fl q) = install (fl p) /\
  sc_capable (fl q) = sc_capable (fl p) /\ sc_disabled (fl q) = sc_disabled (fl p) /\ peer_rx q = peer_rx p.
Proof.
  intros R. repeat split.
  - exact (f_equal (fun x => idx x) R).
  - exact (f_equal (fun x => state x) R).
  - exact (f_equal (fun x => phy_state x) R).
  - exact (f_equal (fun x => retry x) R).
  - exact (f_equal (fun x => wait_ms x) R).
  - exact (f_equal (fun x => tstamp x) R).
  - exact (f_equal (fun x => sc_tstamp x) R).
  - exact (f_equal (fun x => phy_tstamp x) R).
  - exact (f_equal (fun x => rq_restart x) R).
  - exact (f_equal (fun x => rq_event x) R).
  - exact (f_equal (fun x => rq_offline x) R).
  - exact (f_equal (fun x => cmd_id x) R).
  - exact (f_equal (fun x => reply_id x) R).
  - exact (f_equal (fun x => cmdq x) R).
  - exact (f_equal (fun x => pool x) R).
  - exact (f_equal (fun x => chan_id x) R).
  - exact (f_equal (fun x => eph x) R).
  - exact (f_equal (fun x => address x) R).
  - exact (f_equal (fun x => rb x) R).
  - exact (f_equal (fun x => use_scbkd (fl x)) R).
  - exact (f_equal (fun x => sc_active (fl x)) R).
  - exact (f_equal (fun x => pd_mode (fl x)) R).
  - exact (f_equal (fun x => skip_seq (fl x)) R).
  - exact (f_equal (fun x => enforce (fl x)) R).
  - exact (f_equal (fun x => install (fl x)) R).
  - exact (f_equal (fun x => sc_capable (fl x)) R).
  - exact (f_equal (fun x => sc_disabled (fl x)) R).
  - exact (f_equal (fun x => peer_rx x) R).
Qed.

Lemma tcore_build p p2 : cbuild_rel p p2 -> tcore p2 = tcore p /\ seqn p2 = seqn p.
Proof. intros [->|[(_ & f & ->)|(_ & ->)]]; auto. Qed.

Lemma no_tx_sent e f ok o : sent e f ok o -> ok = true -> o = [OTx f].
Proof. intros [(_ & -> & _)|[(k & _ & _ & -> & _)|(-> & _)]]; auto; discriminate. Qed.

Record sent_fx (e : env) (p q : pd) (ok : bool) (o : list out) : Prop := {
  sx_core : tcore q = tcore p;
  sx_inv : cbinv q;
  sx_seq : (69 <= tx_buf_size p -> seqn q = seq_next (seqn p)) /\ (tx_buf_size p < 69 -> seqn q = seqn p /\ ok = false);
  sx_tx : forall d, In (OTx d) o -> 69 <= tx_buf_size p;
  sx_file : file q = file p \/ cmd_id p = 124
}.

Lemma rb_of_typed p q : cbinv p -> tcore q = tcore p -> pd_typed q -> -1 <= seqn q <= 3 -> cbinv q.
Proof.
  intros [A B C D E F] T TY S.
  destruct (tcore_fields _ _ T) as (t1 & t2 & t3 & t4 & t5 & t6 & t7 & t8 & t9 & t10 & t11 & t12 & t13 & t14 & t15 & t16 & t17 & t18 & t19 & t20 & t21 & t22 & t23 & t24 & t25 & t26 & t27 & t28).
  constructor; rewrite ?t14, ?t22, ?t23; auto.
  unfold rx_base. rewrite t19. destruct C as (c1 & c2 & _). destruct TY as (_ & _ & _ & _ & y1 & y2). auto.
Qed.

Lemma seq_next_range s : -1 <= s <= 3 -> 0 <= seq_next s <= 3.
Proof. intros H. unfold seq_next. dif; lia. Qed.

Lemma cmd_sent_fx e p q ok o : cbinv p -> cmd_sent e p q ok o -> sent_fx e p q ok o.
Proof.
  intros I [(N & -> & -> & ->)|(N & p2 & pay & ss & ob & BS & RM & T2 & PY & BR & NO & C)].
  - constructor; auto; try (intros d []). split; [intros; lia|auto].
  - pose proof (tcore_build _ _ BR) as [TC SQ]. rewrite tcore_init in TC.
    change (seqn (cp_init p)) with (seq_next (seqn p)) in SQ.
    pose proof (seq_next_range _ (cv_seq _ I)) as SR.
    assert (FI : file p2 = file p \/ cmd_id p = 124).
    { destruct BR as [->|[(X & _)|(_ & ->)]]; [left; reflexivity|right; exact X|left; reflexivity]. }
    assert (G : forall q0 b ok o, tcore q0 = tcore p2 -> seqn q0 = seqn p2 -> file q0 = file p2 -> pd_typed q0 -> b = ok -> sent_fx e p q0 ok o).
    { intros q0 b ok0 o0 G1 G2 G3 G4 _. constructor; rewrite ?G3; auto.
      - congruence.
      - eapply rb_of_typed; eauto; [congruence|]. rewrite G2, SQ. lia.
      - split; intros; [congruence|lia]. }
    destruct C as [(-> & -> & -> & ->)|(d & -> & C)]; [apply (G p2 false); auto|].
    cbv zeta in C. set (b := cmd_body p d ss) in *.
    destruct C as (F1 & F2 & F3 & F4 & F5 & F6 & F7 & C).
    assert (MB : macced p2 b = true -> blk (sealed_mac p2 b)).
    { intros X. apply sealed_mac_blk; auto. apply T2. apply F7; auto. }
    assert (M0 : pd_mode (fl p2) = false).
    { rewrite <- (cv_mode _ I). exact (f_equal (fun x => pd_mode (fl x)) TC). }
    assert (T3 : macced p2 b = true -> pd_typed (put_mac p2 (sealed_mac p2 b))).
    { intros X. unfold put_mac. rewrite M0. destruct T2 as (y1 & y2 & y3 & y4 & y5 & y6).
      apply mk_typed; auto. apply (wf_c_mac (sc p2)); auto. }
    destruct C as [(L & -> & -> & Q)|(L & (ot & -> & S) & ->)].
    + destruct Q as [->|[EM ->]]; [apply (G p2 false); auto|].
      apply (G _ false); auto; unfold put_mac; rewrite M0; auto.
    + assert (WB : bytes (255 :: wire_of p2 b)).
      { pose proof (tx_buf_le p) as NL. rewrite zlen_cons in L.
        destruct (wire_shape p2 b (proj1 (proj1 (proj2 (proj2 (proj2 T2))))) F1 F2 F4 (fun X => proj2 (F7 X)) ltac:(lia)) as (X & _).
        constructor; auto. unfold byte; lia. }
      assert (WL : zlen (255 :: wire_of p2 b) <= 256) by (pose proof (tx_buf_le p); lia).
      assert (PT : forall x, pd_typed x -> pbuf x = pbuf p2 -> pd_typed (set_pbuf (blit (pbuf p2) 0 (255 :: wire_of p2 b)) x)).
      { intros x (y1 & y2 & y3 & y4 & y5 & y6) PE. rewrite PE in y5, y6. apply mk_typed; auto.
        - change (length (blit (pbuf p2) 0 (255 :: wire_of p2 b)) = 256%nat). rewrite blit_length; auto; unfold zlen in *; lia.
        - change (bytes (blit (pbuf p2) 0 (255 :: wire_of p2 b))). apply bytes_blit; auto. }
      unfold cp_macked. destruct (macced p2 b) eqn:EM.
      * apply (G _ ok); auto; try (unfold put_mac; rewrite M0; auto; fail).
        apply PT; auto. unfold put_mac; rewrite M0; auto.
      * apply (G _ ok); auto.
Qed.

(* a command is transmitted by this update *)
Definition sending (e : env) (p : pd) : Prop :=
  phy_state p = PSend \/ phy_state p = PWait /\ wait_ms p <= e_now e - phy_tstamp p.

(* end of an exchange: the reply is judged, then the state machine moves *)
Definition ended (e : env) (cur : cpstate) (ok : bool) (p1 : pd) (o1 : list out) (q : pd) (o : list out) : Prop :=
  exists p2 st o2, state_check_reply e p1 = Ok (p2, st, o2) /\
    finish_update e cur (state_reset false p2) (ok && st) (o1 ++ o2 ++ notify_command_status e p2 st) = Ok (q, CYield, o).

(* time stamps after a good reply *)
Definition stamped (e : env) (r : cperr) (p : pd) : pd :=
  let p2 := match r with CNone => set_tstamp (e_now e) p | _ => p end in
  if sc_active (fl p2) then set_sc_tstamp (e_now e) p2 else p2.

Inductive upd_case (e : env) (p q : pd) : cperr -> list out -> Prop :=
| UC_hold : phy_state p = PWait -> e_now e - phy_tstamp p < wait_ms p -> q = p -> upd_case e p q CYield []
| UC_pick p1 c o : phy_state p = PIdle -> state_get_cmd e p = Ok (p1, c, o) -> 0 < c ->
    q = set_phy_state PSend (set_cmd_id c p1) -> upd_case e p q CYield o
| UC_none p1 c o1 o : phy_state p = PIdle -> state_get_cmd e p = Ok (p1, c, o1) -> c <= 0 ->
    finish_update e (state p) (set_cmd_id c p1) true o1 = Ok (q, CYield, o) -> upd_case e p q CYield o
| UC_sent p1 o : sending e p -> cmd_sent e (set_phy_state PSend p) p1 true o ->
    q = set_phy_tstamp (e_now e) (set_phy_state PReplyWait (set_reply_id 0 (state_reset false p1))) ->
    upd_case e p q CInprog o
| UC_unsent p1 o1 o : sending e p -> cmd_sent e (set_phy_state PSend p) p1 false o1 ->
    ended e (state p) false (set_phy_state PErr p1) o1 q o -> upd_case e p q CYield o
| UC_wait : phy_state p = PReplyWait -> reply_case e p q CNoData [] -> e_now e - phy_tstamp q <= RESP_TOUT ->
    upd_case e p q CInprog []
| UC_retry p1 : phy_state p = PReplyWait -> reply_case e p p1 CNoData [] -> RESP_TOUT < e_now e - phy_tstamp p1 ->
    retry p1 < 8 ->
    q = set_phy_tstamp (e_now e) (set_retry (retry p1 + 1) (set_phy_state PWait (set_wait_ms CMD_RETRY_WAIT p1))) ->
    upd_case e p q CYield []
| UC_dead p1 o : phy_state p = PReplyWait -> reply_case e p p1 CNoData [] -> RESP_TOUT < e_now e - phy_tstamp p1 ->
    8 <= retry p1 -> ended e (state p) false (set_phy_state PErr p1) [] q o -> upd_case e p q CYield o
| UC_busy p1 o : phy_state p = PReplyWait -> reply_case e p p1 CRetry o ->
    q = set_phy_state PWait (set_wait_ms CMD_RETRY_WAIT (set_phy_tstamp (e_now e) p1)) -> upd_case e p q CYield o
| UC_done p1 r o1 o : phy_state p = PReplyWait -> reply_case e p p1 r o1 ->
    r = CNone \/ r = CUnknown /\ cmd_id p1 = 96 /\ ign_unsol (fl p1) = true ->
    ended e (state p) true (set_phy_state PDone (stamped e r p1)) o1 q o -> upd_case e p q CYield o
| UC_bad p1 r o1 o : phy_state p = PReplyWait -> reply_case e p p1 r o1 ->
    r = CGeneric \/ r = CUnknown /\ ~ (cmd_id p1 = 96 /\ ign_unsol (fl p1) = true) ->
    ended e (state p) false (set_phy_state PErr p1) o1 q o -> upd_case e p q CYield o.

Lemma finish_yield e cur p ok o0 q rc o : finish_update e cur p ok o0 = Ok (q, rc, o) -> rc = CYield.
Proof.
  unfold finish_update. destruct (if ok then _ else _) as [[[p1 n1] o1]| |]; cbn [bind]; try discriminate.
  destruct (do_requests e p1 n1) as [[p2 n2] o2]. destruct (st_eqb cur n2); [intros H; inv H; auto|].
  destruct (state_change e p2 n2). intros H; inv H; auto.
Qed.

Lemma after_err e cur p o q rc o2 : phy_state p = PErr -> after_phy e cur p o = Ok (q, rc, o2) ->
  rc = CYield /\ ended e cur false p o q o2.
Proof.
  intros S H. unfold after_phy in H. rewrite S in H.
  destruct (state_check_reply e p) as [[[p2 st] o1]| |] eqn:E; cbn [bind] in H; try discriminate.
  pose proof (finish_yield _ _ _ _ _ _ _ _ H). subst rc. split; auto. exists p2, st, o1. auto.
Qed.

Lemma after_done e cur p o q rc o2 : phy_state p = PDone -> after_phy e cur p o = Ok (q, rc, o2) ->
  rc = CYield /\ ended e cur true p o q o2.
Proof.
  intros S H. unfold after_phy in H. rewrite S in H.
  destruct (state_check_reply e p) as [[[p2 st] o1]| |] eqn:E; cbn [bind] in H; try discriminate.
  pose proof (finish_yield _ _ _ _ _ _ _ _ H). subst rc. split; auto. exists p2, st, o1. auto.
Qed.

Lemma set_phy_same p v : phy_state p = v -> set_phy_state v p = p.
Proof. intros <-. destruct p; reflexivity. Qed.

Lemma phy_send_case e p q rc o : cbinv p -> hs_ok p -> fread_typed e -> sending e p ->
  (do x <- phy_send e (set_phy_state PSend p) ;
   match x with
   | (p1, CInprog, o) => Ok (p1, CInprog, o)
   | (p1, CYield, o) => Ok (p1, CYield, o)
   | (p1, _, o) => after_phy e (state p) p1 o
   end) = Ok (q, rc, o) -> upd_case e p q rc o.
Proof.
  intros I HO FT SD H. unfold phy_send in H.
  destruct (build_and_send e (set_phy_state PSend p)) as [[[p1 ok] o1]| |] eqn:B; cbn [bind] in H; try discriminate.
  apply build_and_send_spec in B; auto; try apply I.
  destruct ok; cbn [bind] in H.
  - inv H. eapply UC_sent; eauto.
  - apply after_err in H as [-> H]; auto. eapply UC_unsent; eauto.
Qed.

Lemma state_update_case e p q rc o : cbinv p -> (phy_running p = true -> hs_ok p) -> env_typed e ->
  phy_state p <> PDone -> phy_state p <> PErr -> (phy_state p = PReplyWait -> rx_wf p /\ 0 <= seqn p) ->
  state_update e p = Ok (q, rc, o) -> upd_case e p q rc o.
Proof.
  intros I HO (T1 & T2 & T3) N1 N2 W H. unfold state_update in H. cbv zeta in H.
  destruct (phy_running p) eqn:PR.
  - specialize (HO eq_refl). unfold phy_running in PR. unfold phy_state_update in H.
    destruct (phy_state p) eqn:PS; try discriminate.
    + eapply phy_send_case; eauto; [left; auto|]. rewrite (set_phy_same p PSend PS). exact H.
    + unfold phy_reply_wait in H.
      destruct (process_reply e p) as [[[p1 r] o1]| |] eqn:PRP; cbn [bind] in H; try discriminate.
      apply process_reply_case in PRP; auto; try apply I; [|apply W; auto].
      destruct (W eq_refl) as [W1 W2]. pose proof (reply_case_fx _ _ _ _ _ I W2 W1 PRP) as FX.
      assert (RK : r = CNone \/ r = CGeneric \/ r = CRetry \/ r = CUnknown \/ r = CNoData).
      { exact (rx_kind _ _ _ _ _ FX). }
      destruct RK as [->|[->|[->|[->| ->]]]]; cbn [bind] in H.
      * apply after_done in H as [-> H]; auto. eapply UC_done; eauto.
      * apply after_err in H as [-> H]; auto. eapply UC_bad; eauto.
      * inv H. eapply UC_busy; eauto.
      * destruct ((cmd_id p1 =? CMD_POLL) && ign_unsol (fl p1)) eqn:PI; cbn [bind] in H.
        -- apply after_done in H as [-> H]; auto. apply andb_true_iff in PI as [P1 P2]. apply Z.eqb_eq in P1.
           eapply UC_done; eauto.
        -- apply after_err in H as [-> H]; auto. eapply UC_bad; eauto. right. split; auto. intros [X1 X2].
           rewrite X1, X2 in PI. discriminate.
      * destruct (rx_wait _ _ _ _ _ FX eq_refl) as (_ & _ & _ & _ & _ & ->).
        destruct (e_now e - phy_tstamp p1 >? RESP_TOUT) eqn:ET; cbn [bind] in H.
        -- assert (ET' : RESP_TOUT < e_now e - phy_tstamp p1) by lia.
           destruct (retry p1 <? CMD_MAX_RETRIES) eqn:ER; cbn [bind] in H; unfold CMD_MAX_RETRIES in ER.
           ++ inv H. eapply UC_retry; eauto. lia.
           ++ apply after_err in H as [-> H]; auto. eapply UC_dead; eauto. lia.
        -- inv H. eapply UC_wait; eauto. lia.
    + destruct (e_now e - phy_tstamp p <? wait_ms p) eqn:EW; cbn [bind] in H.
      * inv H. apply UC_hold; auto. lia.
      * eapply phy_send_case; eauto. right. split; auto. lia.
  - unfold after_phy in H. unfold phy_running in PR.
    destruct (phy_state p) eqn:PS; try discriminate; try congruence.
    destruct (state_get_cmd e p) as [[[p1 c] o1]| |] eqn:SG; cbn [bind] in H; try discriminate.
    destruct (c >? 0) eqn:EC.
    + inv H. eapply UC_pick; eauto. lia.
    + pose proof (finish_yield _ _ _ _ _ _ _ _ H). subst rc. cbn [app] in H. eapply UC_none; eauto. lia.
Qed.
