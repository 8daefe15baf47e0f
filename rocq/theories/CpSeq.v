(** CP: the sequence numbers of the transmissions to one PD. *)
From Verif Require Import Base ListLemmas Crc SpecCrc CrcProofs CrcBurst Aes AesProofs Rb RbProofs
  Types Sc ScProofs Phy PhyCheck File Pd Cp SpecRx SpecFrame SpecSec SpecSession RxProofs RxFwd PdRx PdCore PhyTx PdTx PdReply
  PdStep PdRun PdWire PdFwd PdSec PdHist2 WireSec CpCtx SpecPd SpecCp SpecCpRun CpTx CpRx CpStep CpInv CpEdge CpFacts CpSum CpWire CpHist CpTime CpFwd CpRetry.
From Coq Require Import ZifyBool ZifyNat.
Ltac Zify.zify_post_hook ::= Z.div_mod_to_equations.
Local Opaque aes_ecb_encrypt aes_cbc_encrypt aes_cbc_decrypt mac_of RB_SIZE osdp_mac enc1 cap_entries osdp_encrypt encrypt_data.

(* the numbering starts again: the PD is identified anew, or a KEYSET exchange ends the online phase *)
Definition restarts (p q : pd) : Prop :=
  (state p = SOffline /\ state q = SInit) \/ (state p = SOnline /\ cmd_id p = 117 /\ state q <> SOnline).

(* a BUSY answer is heard *)
Definition busy_heard (e : env) (p : pd) : Prop :=
  phy_state p = PReplyWait /\ exists f, cp_heard e p f /\ f_intact f /\ f_mine (address p) f /\ f_busy f.

Inductive seq_moved (e : env) (p q : pd) (o : list out) : Prop :=
| SQ_restart : restarts p q -> seqn q = -1 -> seq_moved e p q o
| SQ_sent : sending e p -> seqn q = seq_next (seqn p) -> seq_moved e p q o
| SQ_unsent : sending e p -> seqn q = seqn p -> no_tx o -> seq_moved e p q o
| SQ_busy : busy_heard e p -> phy_state q = PWait -> seqn q = seqn p - 1 -> seq_moved e p q o
| SQ_keep : ~ sending e p -> seqn q = seqn p -> seq_moved e p q o.

Lemma retry_seq e p p1 o : cpi p -> phy_state p = PReplyWait -> reply_case e p p1 CRetry o ->
  (busy_heard e p /\ seqn p1 = seqn p - 1) \/ seqn p1 = seqn p.
Proof.
  intros I P R. remember CRetry as r eqn:ER. destruct R as [k X K S|k X K C|pf r o G S F]; try discriminate.
  assert (MD : pd_mode (fl p) = false) by apply (ci_b p I).
  pose proof (got_heard e p pf G MD) as H. pose proof G as (RX & W1 & _ & _ & PL & _).
  assert (EA : address pf = address p) by exact (f_equal (fun x => address x) RX).
  assert (EQ : seqn pf = seqn p) by exact (f_equal (fun x => seqn x) RX).
  assert (I1 : cbinv pf) by (eapply cbinv_rx; eauto; [apply (ci_b p I)|apply W1]).
  subst r. remember CRetry as r eqn:ER. destruct F as [B E|A B C E|A B C D E|k A B C D H1|p2 l r o A B C D H1 H2]; try discriminate.
  - left. rewrite E. simpl. split; [|congruence]. split; auto. exists (frame_of pf). rewrite <- EA. auto.
  - right. destruct (got_full _ _ _ G) as (FU & _).
    destruct (cp_decode_packet _ _ _ I1 ltac:(destruct FU as (x & y & _); lia) H1) as (Ip2 & DC & _ & _ & _ & BL & NE & L & _).
    assert (L1 : 1 <= zlen l) by (destruct l; [congruence|]; rewrite zlen_cons; pose proof (zlen_nonneg l); lia).
    pose proof (decode_response_rel _ _ _ _ _ _ H2 L1) as RR.
    assert (E3 : seqn p2 = seqn pf) by exact (f_equal (fun x => seqn x) DC).
    assert (E4 : seqn p1 = seqn p2) by exact (f_equal (fun x => seqn x) (rr_core _ _ _ _ _ _ RR)). congruence.
Qed.

Lemma upd_room e p q rc o d : cpi p -> env_typed e -> state_update e p = Ok (q, rc, o) -> In (OTx d) o -> 69 <= tx_buf_size p.
Proof.
  intros I ET U IN. pose proof (cpi_case e p q rc o I ET U) as C. destruct (upd_tx e p q rc o d I ET U IN) as (S & _).
  assert (CB : cbinv (set_phy_state PSend p)) by (apply cbinv_phy; apply I).
  change (tx_buf_size p) with (tx_buf_size (set_phy_state PSend p)).
  destruct C as [P1 T1 E | p1 c o P1 G C0 E | p1 c o1 o P1 G C0 F | p1 o SE CS E | p1 o1 o SE CS E | P1 R T1 | p1 P1 R T1 L E | p1 o P1 R T1 L E
     | p1 o P1 R E | p1 r o1 o P1 R K E | p1 r o1 o P1 R K E ]; try (exfalso; destruct S as [S|[S S2]]; congruence || destruct IN).
  - exact (sx_tx _ _ _ _ _ (cmd_sent_fx e _ _ _ _ CB CS) d IN).
  - destruct (sent_pre e p p1 false o1 I SE (proj2 (proj2 ET)) CS) as [X _].
    assert (IN1 : In (OTx d) o1).
    { apply (ended_tx _ _ _ _ _ _ _ d E); auto. - apply cbinv_phy; apply (px_b _ _ X). - apply (px_rq _ _ X). }
    exact (sx_tx _ _ _ _ _ (cmd_sent_fx e _ _ _ _ CB CS) d IN1).
Qed.

Lemma sent_seq e p p1 ok o1 : cpi p -> cmd_sent e (set_phy_state PSend p) p1 ok o1 ->
  (69 <= tx_buf_size p -> seqn p1 = seq_next (seqn p)) /\ (tx_buf_size p < 69 -> seqn p1 = seqn p /\ ok = false).
Proof.
  intros I CS. assert (CB : cbinv (set_phy_state PSend p)) by (apply cbinv_phy; apply I).
  exact (sx_seq _ _ _ _ _ (cmd_sent_fx e _ _ _ _ CB CS)).
Qed.

Lemma reason_seq e p p1 ok : cpi p -> reason e p p1 ok ->
  (seqn p1 = seqn p /\ ~ sending e p) \/ (sending e p /\ (69 <= tx_buf_size p -> seqn p1 = seq_next (seqn p)) /\ (tx_buf_size p < 69 -> seqn p1 = seqn p)).
Proof.
  intros I RE.
  assert (NS : phy_state p = PReplyWait -> ~ sending e p) by (intros P [S|[S _]]; congruence).
  assert (RS : forall p0 r o, phy_state p = PReplyWait -> reply_case e p p0 r o -> r <> CRetry -> seqn p0 = seqn p).
  { intros p0 r o P R K. destruct (ci_rx p I P) as (W & _ & S0). destruct (reply_case_fx e p p0 r o (ci_b p I) S0 W R) as [_ _ _ _ _ _ _ _ [[Y|Y] _] _]; congruence. }
  destruct RE as [P _ _ _ _ _ E | o1 S CS | P RC _ _ | r o1 P RC K | r o1 p0 P RC E K].
  - left. split; auto. intros [S|[S _]]; congruence.
  - right. split; auto. destruct (sent_seq e p p1 false o1 I CS) as [A B]. split; auto. intros X. apply B; auto.
  - left. split; auto. apply (RS _ _ _ P RC). discriminate.
  - left. split; auto. apply (RS _ _ _ P RC). destruct K; congruence.
  - left. split; auto. rewrite E. destruct (stamped_sc e r p0) as (_ & _ & _ & _ & _ & _ & ->). apply (RS _ _ _ P RC). destruct K as [K|[K _]]; congruence.
Qed.

Lemma reason_cmd e p p1 ok : cpi p -> env_typed e -> phy_running p = true -> reason e p p1 ok -> cmd_id p1 = cmd_id p.
Proof.
  intros I ET R RE. destruct RE as [P _ _ _ _ _ E | o1 S CS | P RC _ _ | r o1 P RC K | r o1 p0 P RC E K].
  - unfold phy_running in R. rewrite P in R. discriminate.
  - assert (CB : cbinv (set_phy_state PSend p)) by (apply cbinv_phy; apply I).
    exact (f_equal (fun x => cmd_id x) (sx_core _ _ _ _ _ (cmd_sent_fx e _ _ _ _ CB CS))).
  - apply (reply_phy e p p1 _ _ I P RC).
  - apply (reply_phy e p p1 _ _ I P RC).
  - rewrite E. destruct (stamped_sc e r p0) as (_ & _ & -> & _). apply (reply_phy e p p0 _ _ I P RC).
Qed.

Lemma seq_step e p q rc o : cpi p -> env_typed e -> state_update e p = Ok (q, rc, o) -> seq_moved e p q o.
Proof.
  intros I ET U.
  destruct (upd_phases e p q rc o I ET U) as [[G _] | PQ].
  - destruct G as [P1 T1 E O | p1 c P1 K C0 E N | p1 S1 CS E | P1 R1 T1 O | p1 P1 R1 T1 L E O | p1 P1 R1 E N].
    + apply SQ_keep; [|rewrite E; auto]. intros [S|[S S2]]; try congruence; lia.
    + apply SQ_keep. { intros [S|[S S2]]; congruence. } rewrite E. simpl.
      destruct K as [k cq K1 K2 E1 K3 K4|f K1 K2 E1 K3|f K1 K2 E1 K3 K4|f K1 K2 E1 K3 K4|K1 E1 K2]; rewrite E1; reflexivity.
    + destruct (sent_seq e p p1 true o I CS) as [A B]. apply SQ_sent; auto. rewrite E. simpl. apply A.
      destruct (Z.lt_ge_cases (tx_buf_size p) 69) as [LT|GE]; [|lia]. destruct (B LT). discriminate.
    + destruct (nodata_ev e p q I P1 R1) as (RX & _). apply SQ_keep; [intros [S|[S S2]]; congruence|]. exact (f_equal (fun x => seqn x) RX).
    + destruct (nodata_ev e p p1 I P1 R1) as (RX & _). apply SQ_keep; [intros [S|[S S2]]; congruence|]. rewrite E. exact (f_equal (fun x => seqn x) RX).
    + destruct (retry_seq e p p1 o I P1 R1) as [[X1 X2]|X].
      * apply SQ_busy; auto; rewrite E; auto.
      * apply SQ_keep; [intros [S|[S S2]]; congruence|]. rewrite E. exact X.
  - destruct (upd_summary e p q rc o I ET U) as [H | p1 RE X PI1 FP F | p1 p3 ok st RE RU X C FP F].
    + exfalso. pose proof (hd_run _ _ _ H) as Y. unfold phy_running in Y. rewrite PQ in Y. discriminate.
    + pose proof (fr_seq _ _ _ _ F) as f5. pose proof (px_state _ _ X) as XS. pose proof (px_rq _ _ X) as XR.
      destruct (reason_seq e p p1 true I RE) as [[Z1 Z2]|[[S|[S _]] _]]; try congruence.
      destruct f5 as [(Y1 & _)|(Y1 & _ & [[Y2 Y3]|[Y2 _]])]; [| |congruence].
      * apply SQ_keep; auto. congruence.
      * apply SQ_restart; auto. left. split; auto. congruence.
    + pose proof (fr_seq _ _ _ _ F) as f5. pose proof (px_state _ _ X) as XS. pose proof (fr_edge _ _ _ _ F) as f2.
      destruct (checked_same _ _ _ C) as (d1 & d2 & d3 & d4 & d5 & d6 & d7 & d8 & d9 & d10 & d11 & d12 & d13 & d14).
      destruct f5 as [(Y1 & _)|(Y1 & _ & [[Y2 Y3]|[Y2 Y3]])].
      * destruct (reason_seq e p p1 ok I RE) as [[Z1 Z2]|(S & Z1 & Z2)].
        -- apply SQ_keep; auto. congruence.
        -- destruct (Z.lt_ge_cases (tx_buf_size p) 69) as [LT|GE].
           ++ apply SQ_unsent; auto. { rewrite Y1, d9. auto. } intros d IN. pose proof (upd_room e p q rc o d I ET U IN). lia.
           ++ apply SQ_sent; auto. rewrite Y1, d9. apply Z1. lia.
      * exfalso. assert (SO : state p = SOffline) by congruence. destruct (offline_idle p I SO) as [_ NR]. congruence.
      * apply SQ_restart; auto. right. split; [congruence|].
        assert (KA : keyset_acked p1). { destruct C as [NK E3 | p2 KA KT E3]; auto. exfalso. rewrite E3 in Y2. change (rq_restart p1 = true) in Y2. rewrite (px_rq _ _ X) in Y2. discriminate. }
        split. { rewrite <- (reason_cmd e p p1 ok I ET RU RE). apply KA. }
        intros SQ. unfold edge_ok in f2. rewrite Y3, SQ in f2. destruct f2 as (_ & Z1 & _). congruence.
Qed.

(* a refresh in which the entry wants to transmit *)
Definition sends (en : cp_entry) : Prop := match ce_call en with Update e => sending e (ce_pd en) | _ => False end.
Definition hears_busy (en : cp_entry) : Prop := match ce_call en with Update e => busy_heard e (ce_pd en) | _ => False end.

Definition restarting (en : cp_entry) : Prop :=
  exists q o, cp_do (ce_call en) (ce_pd en) = Ok (q, o) /\ restarts (ce_pd en) q.

Lemma seq_kept p l q : cp_seg p l q -> cpi p -> Forall (fun en => ~ sends en) l -> Forall (fun en => ~ hears_busy en) l ->
  Forall (fun en => ~ restarting en) l -> seqn q = seqn p.
Proof.
  induction 1 as [p|p c q o l r T D S IH]; intros I F1 F2 F3; auto.
  inversion F1 as [|? ? A1 A2]; inversion F2 as [|? ? B1 B2]; inversion F3 as [|? ? C1 C2]; subst.
  assert (IQ : cpi q) by (eapply cp_do_inv; eauto).
  rewrite (IH IQ A2 B2 C2). destruct (is_update c) eqn:UC.
  - destruct c as [e| | | | |]; try discriminate. destruct (cp_do_update e p q o D) as (rc & U).
    destruct (seq_step e p q rc o I T U) as [X _|X _|X _ _|X _ _|_ X]; auto; exfalso; [apply C1|apply A1|apply A1|apply B1]; try exact X.
    exists q, o. auto.
  - destruct (other_eq c p q o UC D) as [E N]. destruct (ucore_fields _ _ E) as (u1 & u2 & u3 & _). auto.
Qed.

(* nothing was sent since the numbering was reset *)
Lemma seq_fresh p l q : cp_seg p l q -> cpi p -> seqn p = -1 -> Forall (fun en => ~ sends en) l -> seqn q = -1.
Proof.
  induction 1 as [p|p c q o l r T D S IH]; intros I SN F1; auto.
  inversion F1 as [|? ? A1 A2]; subst. assert (IQ : cpi q) by (eapply cp_do_inv; eauto). apply IH; auto.
  destruct (is_update c) eqn:UC.
  - destruct c as [e| | | | |]; try discriminate. destruct (cp_do_update e p q o D) as (rc & U).
    destruct (seq_step e p q rc o I T U) as [_ X|X _|X _ _|[X _] _ _|_ X]; auto; try (exfalso; apply A1; exact X); [|congruence].
    destruct (ci_rx p I X) as (_ & _ & S0). lia.
  - destruct (other_eq c p q o UC D) as [E N]. destruct (ucore_fields _ _ E) as (u1 & u2 & u3 & _). congruence.
Qed.

(* waiting after a BUSY answer *)
Lemma wait_kept p l q : cp_seg p l q -> cpi p -> phy_state p = PWait -> Forall (fun en => ~ sends en) l -> seqn q = seqn p /\ phy_state q = PWait.
Proof.
  induction 1 as [p|p c q o l r T D S IH]; intros I P F1; auto.
  inversion F1 as [|? ? A1 A2]; subst. assert (IQ : cpi q) by (eapply cp_do_inv; eauto).
  assert (X : seqn q = seqn p /\ phy_state q = PWait).
  { destruct (is_update c) eqn:UC.
    - destruct c as [e| | | | |]; try discriminate. destruct (cp_do_update e p q o D) as (rc & U). unfold sends in A1. simpl in A1.
      assert (LT : e_now e - phy_tstamp p < wait_ms p).
      { destruct (Z.lt_ge_cases (e_now e - phy_tstamp p) (wait_ms p)) as [LT|GE]; auto. exfalso. apply A1. right. split; auto. }
      unfold state_update, phy_running, phy_state_update in U. rewrite P in U. apply Z.ltb_lt in LT. rewrite LT in U. rewrite bind_Ok in U. injection U as <- _ _. auto.
    - destruct (other_eq c p q o UC D) as [E N]. destruct (ucore_fields _ _ E) as (u1 & u2 & u3 & _). split; congruence. }
  destruct X as [X1 X2]. destruct (IH IQ X2 A2) as [Y1 Y2]. split; congruence.
Qed.

(* number of the frame in a transmission, once its header is out *)
Lemma tx_number e p d w : tx_is e p d -> d = 255 :: w -> 5 <= zlen w -> f_seq w = seq_next (seqn p).
Proof.
  intros [(w0 & k & code & data & E & K & _ & _ & _ & _ & _ & _ & FS & _)] -> L. rewrite <- FS. unfold f_seq, getb. f_equal.
  assert (E1 : w = firstn (Z.to_nat k - 1) w0).
  { destruct (Z.to_nat k) as [|n] eqn:N; [lia|]. simpl in E. injection E as ->. f_equal. lia. }
  assert (L1 : (5 <= Z.to_nat k - 1)%nat). { rewrite E1 in L. unfold zlen in L. rewrite firstn_length in L. lia. }
  rewrite E1. unfold f_seq. rewrite ?getb_nth. try rewrite nth_firstn by lia. reflexivity.
Qed.

Theorem seq_cycle p ea qa rca oa wa l q eb r rcb ob wb :
  cpi p -> env_typed ea -> env_typed eb ->
  state_update ea p = Ok (qa, rca, oa) -> In (OTx (255 :: wa)) oa -> 5 <= zlen wa -> ~ restarts p qa ->
  cp_seg qa l q -> Forall (fun en => ~ sends en) l -> Forall (fun en => ~ hears_busy en) l -> Forall (fun en => ~ restarting en) l ->
  state_update eb q = Ok (r, rcb, ob) -> In (OTx (255 :: wb)) ob -> 5 <= zlen wb ->
  f_seq wb = seq_next (f_seq wa).
Proof.
  intros I EA EB UA INA LA NR S F1 F2 F3 UB INB LB.
  destruct (upd_tx ea p qa rca oa _ I EA UA INA) as (SEA & RP & TA).
  assert (IA : cpi qa) by exact (upd_inv _ _ _ _ _ I EA (cpi_case _ _ _ _ _ I EA UA)). assert (IQ : cpi q) by (eapply seg_inv; eauto).
  destruct (upd_tx eb q r rcb ob _ IQ EB UB INB) as (SEB & RB & TB).
  rewrite (tx_number ea p _ wa TA eq_refl LA), (tx_number eb q _ wb TB eq_refl LB), (seq_kept _ _ _ S IA F1 F2 F3). f_equal.
  destruct (seq_step ea p qa rca oa I EA UA) as [X _|_ X|_ _ X|[X _] _ _|X _]; auto; try contradiction.
  - exfalso. eapply X; eauto.
  - exfalso. destruct SEA as [Y|[Y _]]; congruence.
Qed.

Theorem seq_busy p ea qa rca oa wa l q eb rest f qb rcb ob m q2 ec r rcc oc wc :
  cpi p -> env_typed ea -> env_typed eb -> env_typed ec ->
  state_update ea p = Ok (qa, rca, oa) -> In (OTx (255 :: wa)) oa -> 5 <= zlen wa -> ~ restarts p qa ->
  cp_seg qa l q -> Forall (fun en => ~ sends en) l -> Forall (fun en => ~ hears_busy en) l -> Forall (fun en => ~ restarting en) l ->
  phy_state q = PReplyWait -> next_reply eb q f rest -> f_intact f -> f_mine (address q) f -> f_busy f ->
  state_update eb q = Ok (qb, rcb, ob) ->
  cp_seg qb m q2 -> Forall (fun en => ~ sends en) m ->
  state_update ec q2 = Ok (r, rcc, oc) -> In (OTx (255 :: wc)) oc -> 5 <= zlen wc ->
  f_seq wc = f_seq wa.
Proof.
  intros I EA EB EC UA INA LA NR S F1 F2 F3 P N B1 B2 B3 UB S2 G1 UC INC LC.
  destruct (upd_tx ea p qa rca oa _ I EA UA INA) as (SEA & RP & TA).
  assert (IA : cpi qa) by exact (upd_inv _ _ _ _ _ I EA (cpi_case _ _ _ _ _ I EA UA)). assert (IQ : cpi q) by (eapply seg_inv; eauto).
  assert (IB : cpi qb) by exact (upd_inv _ _ _ _ _ IQ EB (cpi_case _ _ _ _ _ IQ EB UB)). assert (IQ2 : cpi q2) by (eapply seg_inv; eauto).
  destruct (upd_tx ec q2 r rcc oc _ IQ2 EC UC INC) as (SEC & RC & TC).
  destruct (busy_step eb q f rest IQ EB P N B1 B2 B3) as (q' & U' & X1 & X2 & X3 & X4 & _). rewrite UB in U'. injection U' as <- _ _.
  rewrite (tx_number ea p _ wa TA eq_refl LA), (tx_number ec q2 _ wc TC eq_refl LC), (proj1 (wait_kept _ _ _ S2 IB X1 G1)), X4, (seq_kept _ _ _ S IA F1 F2 F3).
  assert (SQ : seqn qa = seq_next (seqn p)).
  { destruct (seq_step ea p qa rca oa I EA UA) as [X _|_ X|_ _ X|[X _] _ _|X _]; auto; try contradiction.
    - exfalso. eapply X; eauto.
    - exfalso. destruct SEA as [Y|[Y _]]; congruence. }
  rewrite SQ. pose proof (cv_seq p (ci_b p I)) as SR. unfold seq_next. destruct (seqn p =? 3) eqn:E3; [reflexivity|].
  destruct (seqn p + 1 - 1 =? 3) eqn:E4; lia.
Qed.

Theorem seq_first p l q e r rc o w : cpi p -> seqn p = -1 -> cp_seg p l q -> Forall (fun en => ~ sends en) l ->
  env_typed e -> state_update e q = Ok (r, rc, o) -> In (OTx (255 :: w)) o -> 5 <= zlen w -> f_seq w = 0.
Proof.
  intros I SN S F ET U IN L. assert (IQ : cpi q) by (eapply seg_inv; eauto).
  destruct (upd_tx e q r rc o _ IQ ET U IN) as (_ & _ & T). rewrite (tx_number e q _ w T eq_refl L), (seq_fresh _ _ _ S I SN F). reflexivity.
Qed.
