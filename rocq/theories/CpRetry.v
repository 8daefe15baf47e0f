(** CP: number and spacing of the transmissions of one command, and sequence numbers. *)
From Verif Require Import Base ListLemmas Crc SpecCrc CrcProofs CrcBurst Aes AesProofs Rb RbProofs
  Types Sc ScProofs Phy PhyCheck File Pd Cp SpecRx SpecFrame SpecSec SpecSession RxProofs RxFwd PdRx PdCore PhyTx PdTx PdReply
  PdStep PdRun PdWire PdFwd PdSec PdHist2 WireSec CpCtx SpecPd SpecCp SpecCpRun CpTx CpRx CpStep CpInv CpEdge CpFacts CpSum CpWire CpHist CpTime CpFwd.
From Coq Require Import ZifyBool ZifyNat.
Ltac Zify.zify_post_hook ::= Z.div_mod_to_equations.
Local Opaque aes_ecb_encrypt aes_cbc_encrypt aes_cbc_decrypt mac_of RB_SIZE osdp_mac enc1 cap_entries osdp_encrypt encrypt_data.

(** * C35 *)

(* the refresh heard no intact frame for this entry *)
Definition unanswered (en : cp_entry) : Prop :=
  match ce_call en with
  | Update e => forall f, cp_heard e (ce_pd en) f -> ~ (f_intact f /\ f_mine (address (ce_pd en)) f)
  | _ => True
  end.

(* transmissions that are still possible *)
Definition tries (p : pd) : Z :=
  match phy_state p with PSend | PWait => 9 - retry p | PReplyWait => 8 - retry p | _ => 0 end.

Definition is_tx (o : out) : bool := match o with OTx _ => true | _ => false end.
Definition tx_count (o : list out) : Z := zlen (filter is_tx o).
Definition seg_tx (l : list cp_entry) : Z := tx_count (flat_map ce_out l).

Lemma tx_count_app a b : tx_count (a ++ b) = tx_count a + tx_count b.
Proof. unfold tx_count. rewrite filter_app, zlen_app. reflexivity. Qed.
Lemma tx_count_none o : no_tx o -> tx_count o = 0.
Proof.
  unfold tx_count. induction o as [|x o IH]; intros N; auto. simpl. assert (M : no_tx o) by (intros d IN; apply (N d); right; auto).
  destruct x; simpl; auto. exfalso. eapply N. left. reflexivity.
Qed.
Lemma tx_count_nn o : 0 <= tx_count o.
Proof. apply zlen_nonneg. Qed.

Lemma unanswered_retry e p p1 o : cpi p -> phy_state p = PReplyWait -> (forall f, cp_heard e p f -> ~ (f_intact f /\ f_mine (address p) f)) ->
  reply_case e p p1 CRetry o -> False.
Proof.
  intros I P N R. remember CRetry as r eqn:ER. destruct R as [k X K S|k X K C|pf r o G S F]; try discriminate.
  assert (MD : pd_mode (fl p) = false) by apply (ci_b p I).
  pose proof (got_heard e p pf G MD) as H. specialize (N _ H).
  assert (EA : address pf = address p) by (destruct G as (RX & _); exact (f_equal (fun x => address x) RX)). rewrite <- EA in N.
  subst r. remember CRetry as r eqn:ER. destruct F; try discriminate; tauto.
Qed.

Lemma cmd_sent_count e p q ok o : cmd_sent e p q ok o -> tx_count o <= 1.
Proof.
  intros [(_ & _ & _ & ->) | (TB & p2 & pay & ss & ob & B & RM & TY & CP & CR & NT & X)]; [reflexivity || (unfold tx_count; simpl; rewrite zlen_nil; lia)|].
  pose proof (tx_count_none _ NT) as Z0. destruct X as [(_ & _ & _ & ->) | (dd & _ & X)]; [lia|].
  destruct X as (_ & _ & _ & _ & _ & _ & _ & X).
  destruct X as [(_ & _ & -> & _)|(_ & (ot & -> & SD) & _)]; [lia|]. rewrite tx_count_app, Z0.
  destruct SD as [(-> & _)|[(k & _ & -> & _)|(-> & _)]]; unfold tx_count; cbn [filter is_tx]; unfold zlen; cbn [length]; lia.
Qed.

Lemma sent_tries e p q o : cpi p -> env_typed e -> went_on e p q o -> unanswered (mkCe p (Update e) o) -> phy_running p = true ->
  tx_count o + tries q <= tries p /\ (phy_state q = PReplyWait -> 0 <= tries q).
Proof.
  intros I ET G UN R. pose proof (ci_retry p I) as RT.
  destruct G as [P T E O | p1 c P K C0 E N | p1 S CS E | P R1 T O | p1 P R1 T L E O | p1 P R1 E N].
  - subst o. rewrite E. unfold tx_count. simpl. split; [unfold tries; rewrite zlen_nil; lia|congruence].
  - exfalso. unfold phy_running in R. rewrite P in R. discriminate.
  - pose proof (cmd_sent_count e _ _ _ _ CS) as C1. destruct (sent_pre e p p1 true o I S (proj2 (proj2 ET)) CS) as [X _].
    pose proof (px_retry _ _ X) as X1. rewrite E. unfold tries. cbn [phy_state set_phy_tstamp set_phy_state set_reply_id retry]. simpl. rewrite X1.
    destruct S as [S|[S _]]; rewrite S; lia.
  - subst o. destruct (nodata_ev e p q I P R1) as (RX & _). assert (E4 : retry q = retry p) by exact (f_equal (fun x => retry x) RX).
    assert (E5 : phy_state q = phy_state p) by exact (f_equal (fun x => phy_state x) RX). unfold tries. rewrite E4, E5, P. unfold tx_count. simpl. rewrite zlen_nil. lia.
  - subst o. rewrite E. unfold tries. simpl. rewrite P. unfold tx_count. simpl. rewrite zlen_nil. split; [lia|discriminate].
  - exfalso. eapply unanswered_retry; eauto.
Qed.

Lemma upd_count e p q rc o : cpi p -> env_typed e -> state_update e p = Ok (q, rc, o) ->
  tx_count o <= 1 /\ (phy_state p = PReplyWait -> tx_count o = 0).
Proof.
  intros I ET U. split.
  - pose proof (cpi_case e p q rc o I ET U) as C.
    assert (NZ : tx_count [] <= 1) by (unfold tx_count; simpl; rewrite zlen_nil; lia).
    assert (NT : no_tx o -> tx_count o <= 1) by (intros X; rewrite (tx_count_none _ X); lia).
    destruct C as [P1 T1 E | p1 c o P1 G C0 E | p1 c o1 o P1 G C0 F | p1 o SE CS E | p1 o1 o SE CS E | P1 R T1 | p1 P1 R T1 L E | p1 o P1 R T1 L E
     | p1 o P1 R E | p1 r o1 o P1 R K E | p1 r o1 o P1 R K E ]; auto;
     try (apply NT; intros d IN; destruct (upd_tx e p q _ o d I ET U IN) as (SE & _); destruct SE as [SE|[SE _]]; congruence).
    + eapply cmd_sent_count; eauto.
    + destruct (sent_pre e p p1 false o1 I SE (proj2 (proj2 ET)) CS) as [X _].
      destruct (ended_out _ _ _ _ _ _ _ E) as (o9 & -> & N9). { apply cbinv_phy. apply (px_b _ _ X). } { apply (px_rq _ _ X). }
      rewrite tx_count_app, (tx_count_none _ N9). pose proof (cmd_sent_count e _ _ _ _ CS). lia.
  - intros P. apply tx_count_none. intros d IN. destruct (upd_tx e p q rc o d I ET U IN) as (SE & _). destruct SE as [SE|[SE _]]; congruence.
Qed.

Lemma tries_nn p : cpi p -> 0 <= tries p.
Proof. intros I. pose proof (ci_retry p I). unfold tries. destruct (phy_state p); lia. Qed.

Lemma seg_count p l q : cp_seg p l q -> cpi p -> Forall (fun en => phy_running (ce_pd en) = true) l -> Forall unanswered l ->
  seg_tx l <= tries p.
Proof.
  induction 1 as [p|p c q o l r T D S IH]; intros I F1 F2.
  - unfold seg_tx, tx_count. simpl. rewrite zlen_nil. apply tries_nn; auto.
  - inversion F1 as [|? ? A1 A2]; inversion F2 as [|? ? B1 B2]; subst. simpl in A1.
    assert (IQ : cpi q) by (eapply cp_do_inv; eauto). specialize (IH IQ A2 B2).
    unfold seg_tx. simpl. rewrite tx_count_app. fold (seg_tx l). destruct (is_update c) eqn:UC.
    + destruct c as [e| | | | |]; try discriminate. destruct (cp_do_update e p q o D) as (rc & U).
      destruct (upd_phases e p q rc o I T U) as [[G _] | PQ].
      * destruct (sent_tries e p q o I T G B1 A1) as [X _]. lia.
      * assert (Z0 : seg_tx l = 0).
        { assert (TZ : tries q = 0) by (unfold tries; rewrite PQ; reflexivity). pose proof (tx_count_nn (flat_map ce_out l)). unfold seg_tx in *. lia. }
        destruct (upd_count e p q rc o I T U) as [C1 C2]. pose proof (ci_retry p I).
        unfold tries. unfold phy_running in A1. destruct (phy_state p) eqn:P; try discriminate; try lia; rewrite (C2 eq_refl); lia.
    + destruct (other_eq c p q o UC D) as [E N]. destruct (ucore_fields _ _ E) as (u1 & u2 & u3 & u4 & _).
      rewrite (tx_count_none _ N). unfold tries in *. rewrite u2, u4 in IH. lia.
Qed.

(* time between two transmissions *)
Definition spaced (t : Z) (p : pd) : Prop :=
  match phy_state p with
  | PReplyWait => phy_tstamp p = t
  | PWait => t + 200 < phy_tstamp p /\ wait_ms p = 800
  | PSend => False
  | _ => True
  end.

Lemma sent_spaced e p q o : went_on e p q o -> sending e p -> spaced (e_now e) q.
Proof.
  intros G S. destruct G as [P T E O | p1 c P K C0 E N | p1 S1 CS E | P R1 T O | p1 P R1 T L E O | p1 P R1 E N];
   try (exfalso; destruct S as [S|[S S2]]; try congruence; lia).
  rewrite E. reflexivity.
Qed.

Lemma spaced_step e p q o t : cpi p -> went_on e p q o -> unanswered (mkCe p (Update e) o) -> phy_running p = true -> spaced t p -> ~ sending e p -> spaced t q.
Proof.
  intros I G UN R SP NS. destruct G as [P T E O | p1 c P K C0 E N | p1 S1 CS E | P R1 T O | p1 P R1 T L E O | p1 P R1 E N].
  - rewrite E. auto.
  - exfalso. unfold phy_running in R. rewrite P in R. discriminate.
  - contradiction.
  - destruct (nodata_ev e p q I P R1) as (RX & _). unfold spaced in *.
    assert (E5 : phy_state q = phy_state p) by exact (f_equal (fun x => phy_state x) RX).
    assert (E6 : phy_tstamp q = phy_tstamp p) by exact (f_equal (fun x => phy_tstamp x) RX). rewrite E5, E6, P in *. auto.
  - unfold spaced in *. rewrite P in SP. rewrite E. simpl. change RESP_TOUT with 200 in T. split; [lia|reflexivity].
  - exfalso. eapply unanswered_retry; eauto.
Qed.

Lemma sending_tx e p q o : went_on e p q o -> sending e p -> exists d, In (OTx d) o.
Proof.
  intros G S. destruct G as [P T E O | p1 c P K C0 E N | p1 S1 CS E | P R1 T O | p1 P R1 T L E O | p1 P R1 E N];
   try (exfalso; destruct S as [S|[S S2]]; try congruence; lia).
  clear E. destruct CS as [(_ & _ & X & _) | (TB & p2 & pay & ss & ob & B & RM & TY & CP & CR & NT & X)]; [discriminate|].
  destruct X as [(_ & _ & X & _) | (dd & _ & X)]; [discriminate|]. destruct X as (_ & _ & _ & _ & _ & _ & _ & X).
  destruct X as [(_ & X & _)|(_ & (ot & -> & SD) & _)]; [discriminate|].
  destruct SD as [(_ & SD & _)|[(k & _ & _ & SD & _)|(SD & _)]]; [discriminate|discriminate|rewrite SD].
  eexists. apply in_or_app. right; left; reflexivity.
Qed.

Lemma idle_run_end p l q : cp_seg p l q -> phy_running p = false -> Forall (fun en => phy_running (ce_pd en) = true) l -> q = p.
Proof. intros S R F. destruct S; auto. inversion F; subst. simpl in *. congruence. Qed.

Lemma seg_spaced t p l q : cp_seg p l q -> cpi p -> Forall (fun en => phy_running (ce_pd en) = true) l -> Forall unanswered l ->
  Forall (fun en => ~ transmits en) l -> phy_running q = true -> spaced t p -> spaced t q.
Proof.
  induction 1 as [p|p c q o l r T D S IH]; intros I F1 F2 F3 RQ SP; auto.
  inversion F1 as [|? ? A1 A2]; inversion F2 as [|? ? B1 B2]; inversion F3 as [|? ? C1 C2]; subst. simpl in A1.
  assert (IQ : cpi q) by (eapply cp_do_inv; eauto). apply IH; auto. destruct (is_update c) eqn:UC.
  - destruct c as [e| | | | |]; try discriminate. destruct (cp_do_update e p q o D) as (rc & U).
    destruct (upd_phases e p q rc o I T U) as [[G _] | PQ].
    + apply (spaced_step e p q o t I G B1 A1 SP). intros SE. apply C1. apply (sending_tx e p q o G SE).
    + exfalso. assert (RR : phy_running q = false) by (unfold phy_running; rewrite PQ; reflexivity).
      pose proof (idle_run_end q l r S RR A2). congruence.
  - destruct (other_eq c p q o UC D) as [E N]. destruct (ucore_fields _ _ E) as (u1 & u2 & u3 & u4 & u5 & u6 & u7 & _).
    unfold spaced in *. rewrite u2, u5, u7. auto.
Qed.

Theorem seg_gap p ea qa rca oa da l q eb r rcb ob db :
  cpi p -> env_typed ea -> env_typed eb ->
  state_update ea p = Ok (qa, rca, oa) -> In (OTx da) oa -> cp_seg qa l q ->
  Forall (fun en => phy_running (ce_pd en) = true) l -> phy_running qa = true -> Forall unanswered l -> Forall (fun en => ~ transmits en) l ->
  state_update eb q = Ok (r, rcb, ob) -> In (OTx db) ob -> e_now ea + 1000 < e_now eb.
Proof.
  intros I EA EB UA INA S F1 RA F2 F3 UB INB.
  destruct (upd_tx ea p qa rca oa da I EA UA INA) as (SEA & RP & _).
  assert (IA : cpi qa) by exact (upd_inv _ _ _ _ _ I EA (cpi_case _ _ _ _ _ I EA UA)). assert (IQ : cpi q) by (eapply seg_inv; eauto).
  destruct (upd_tx eb q r rcb ob db IQ EB UB INB) as (SEB & RB & _).
  destruct (upd_phases ea p qa rca oa I EA UA) as [[G _] | PQ]; [|unfold phy_running in RA; rewrite PQ in RA; discriminate].
  pose proof (sent_spaced ea p qa oa G SEA) as SP. pose proof (seg_spaced _ _ _ _ S IA F1 F2 F3 RB SP) as SQ.
  unfold spaced in SQ. destruct SEB as [X|[X Y]]; rewrite X in SQ; [destruct SQ|]. lia.
Qed.

(* the last try stays unanswered *)
Lemma gives_up e p q rc o : cpi p -> tinv p -> env_typed e -> state_update e p = Ok (q, rc, o) -> phy_state p = PReplyWait -> arrived e p = [] ->
  200 < e_now e - phy_tstamp p -> retry p = 8 ->
  state q = SOffline \/ (enforce (fl p) = false /\ (state p = SChlng \/ state p = SScrypt)).
Proof.
  intros I T ET U P A TO R.
  destruct (upd_summary e p q rc o I ET U) as [H | p1 RE X PI1 FP F | p1 p3 ok st RE RU X C FP F].
  - exfalso. destruct (upd_phases e p q rc o I ET U) as [[G _] | PQ]; [|pose proof (hd_run _ _ _ H) as Y; unfold phy_running in Y; rewrite PQ in Y; discriminate].
    destruct G as [P1 T1 E O | p1 c P1 K C0 E N | p1 S1 CS E | P1 R1 T1 O | p1 P1 R1 T1 L E O | p1 P1 R1 E N]; try congruence.
    + destruct S1 as [S1|[S1 _]]; congruence.
    + change RESP_TOUT with 200 in T1. lia.
    + lia.
    + pose proof (silent_reply e p p1 _ _ A R1). discriminate.
  - congruence.
  - assert (OK : ok = false /\ reply_id p1 = reply_id p /\ rq_offline p1 = rq_offline p).
    { destruct RE as [Y _ _ _ _ _ | o1 Y _ | Y RC _ _ | r o1 Y RC K | r o1 p0 Y RC _ K].
      - congruence.
      - destruct Y as [Y|[Y _]]; congruence.
      - destruct (nodata_ev e p p1 I P RC) as (RX & _). split; auto. split; [exact (f_equal (fun x => reply_id x) RX)|exact (f_equal (fun x => rq_offline x) RX)].
      - pose proof (silent_reply e p p1 _ _ A RC). destruct K; congruence.
      - pose proof (silent_reply e p p0 _ _ A RC). destruct K as [K|[K _]]; congruence. }
    destruct OK as (-> & RI & RO). pose proof (ti_reply p T P) as RI0.
    assert (NK : ~ keyset_acked p1) by (intros (_ & _ & Y); rewrite RI, RI0 in Y; discriminate).
    assert (RQ : rq_restart p3 = false).
    { destruct C as [_ -> | p2 KA _ _]; [exact (px_rq _ _ X)|contradiction]. }
    destruct (checked_same _ _ _ C) as (d1 & d2 & d3 & d4 & d5 & d6 & d7 & d8 & d9 & d10 & _).
    pose proof (px_state _ _ X) as X1. pose proof (px_enf _ _ X) as X2.
    destruct F as [_ f2 _ _ _ _ _ _ _ _]. unfold edge_ok in f2. simpl in f2. rewrite d1, d2, X1, X2 in f2. rewrite RQ in f2.
    destruct (state p) eqn:SP; destruct (state q) eqn:SQ; try (destruct f2; fail); auto; try discriminate;
      try (right; split; auto; tauto); try (destruct f2; discriminate); try (destruct f2 as (_ & [Y|(Y & _)]); discriminate).
    all: destruct f2; discriminate.
Qed.
