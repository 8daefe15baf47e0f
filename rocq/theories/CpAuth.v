(** CP: an event of a session is handed over in the refresh that heard it. *)
From Verif Require Import Base ListLemmas Crc SpecCrc CrcProofs CrcBurst Aes AesProofs Rb RbProofs
  Types Sc ScProofs Phy PhyCheck File Pd Cp SpecRx SpecFrame SpecSec SpecSession SpecReply SpecAuth RxProofs RxFwd PdRx PdCore PhyTx PdTx PdReply
  PdStep PdRun PdWire PdFwd PdSec PdHist2 WireSec SaysProofs AuthProofs CpCtx SpecPd SpecCp SpecCpRun CpTx CpRx CpStep CpInv CpEdge CpFacts CpSum CpWire CpHist CpTime CpFwd CpRetry CpSeq CpQueue CpReply.
From Coq Require Import ZifyBool ZifyNat.
Ltac Zify.zify_post_hook ::= Z.div_mod_to_equations.
Local Opaque aes_ecb_encrypt aes_cbc_encrypt aes_cbc_decrypt mac_of RB_SIZE osdp_mac enc1 cap_entries osdp_encrypt encrypt_data.

Lemma finish_pending e p ok o0 q rc o : finish_update e (state p) p ok o0 = Ok (q, rc, o) -> state q = SOnline -> rq_event q = false.
Proof.
  unfold finish_update. intros H SQ.
  destruct (if ok then _ else _) as [[[p1 n1] o1]| |] eqn:NX; simpl in H; try discriminate.
  destruct (do_requests e p1 n1) as [[p2 n2] o2] eqn:DR.
  assert (C : rq_event p2 = false \/ (state p2 <> SOnline /\ n2 <> SOnline)).
  { unfold do_requests in DR. destruct (st_eqb (state p1) SOnline || st_eqb n1 SOnline) eqn:ON.
    - left. destruct (rq_restart p1); simpl in DR; (destruct (rq_offline p1); simpl in DR); destruct (rq_event p1) eqn:E; simpl in DR; inv DR; simpl; auto.
    - right. inv DR. apply Bool.orb_false_iff in ON as [A B]. split; intros X; rewrite X in *; discriminate. }
  destruct (st_eqb (state p) n2).
  - inv H. destruct C as [C|[C _]]; auto. congruence.
  - destruct (state_change e p2 n2) as [p3 o3] eqn:CH. inv H. rewrite (change_rq _ _ _ _ _ CH). destruct C as [C|[_ C]]; auto. exfalso.
    destruct n2; cbn [state_change] in CH; injection CH as <- _; try discriminate SQ. congruence.
Qed.
Lemma ended_pending e p ok p1 o1 q o : ended e (state p) ok p1 o1 q o -> state p1 = state p -> state q = SOnline -> rq_event q = false.
Proof.
  intros (p2 & st & o2 & CK & FU) S SQ. destruct (check_checked _ _ _ _ _ CK) as (CH & _).
  assert (S2 : state (state_reset false p2) = state p) by (destruct CH as [N -> |p3 K T ->]; [simpl; congruence|]; destruct T as [U0 -> |ty n k d U0 E TA ->]; simpl; congruence).
  rewrite <- S2 in FU. exact (finish_pending _ _ _ _ _ _ _ FU SQ).
Qed.
Lemma pick_rq e p p1 c o : picked e p p1 c o -> rq_event p1 = rq_event p.
Proof. intros [k cq ? ? -> ? ?|f ? ? -> ?|f ? ? -> ? ?|f ? ? -> ? ?|? -> ?]; reflexivity. Qed.
Lemma sent_rq e p p1 r o : cpi p -> cmd_sent e (set_phy_state PSend p) p1 r o -> rq_event p1 = rq_event p.
Proof.
  intros I CS. assert (CB : cbinv (set_phy_state PSend p)) by (apply cbinv_phy; apply I).
  exact (f_equal (fun x => rq_event x) (sx_core _ _ _ _ _ (cmd_sent_fx e _ _ _ _ CB CS))).
Qed.
Lemma upd_pending e p q rc o : cpi p -> env_typed e -> state_update e p = Ok (q, rc, o) -> state q = SOnline -> rq_event q = true -> state p = SOnline /\ rq_event p = true.
Proof.
  intros I ET U SQ RQ. pose proof (cpi_case e p q rc o I ET U) as C.
  assert (WT : forall p1 r o1, phy_state p = PReplyWait -> reply_case e p p1 r o1 -> r <> CNone -> state p1 = SOnline -> rq_event p1 = true -> state p = SOnline /\ rq_event p = true).
  { intros p1 r o1 P R N S1 R1. destruct (reply_eph _ _ _ _ _ I P R) as [(X & _)|(X & _)]; [|congruence].
    pose proof (px_state _ _ (reply_pre _ _ _ _ _ I P R)). split; congruence. }
  assert (EN : forall ok p1 o1 o2, ended e (state p) ok p1 o1 q o2 -> state p1 = state p -> state p = SOnline /\ rq_event p = true).
  { intros ok p1 o1 o2 E S. pose proof (ended_pending _ _ _ _ _ _ _ E S SQ). congruence. }
  destruct C as [P1 T1 E | p1 c o P1 G C0 E | p1 c o1 o P1 G C0 F | p1 o SE CS E | p1 o1 o SE CS E | P1 R1 T1 | p1 P1 R1 T1 L E | p1 o P1 R1 T1 L E
       | p1 o P1 R1 E | p1 r o1 o P1 R1 K E | p1 r o1 o P1 R1 K E ].
  - subst q. auto.
  - destruct (pick_src _ _ _ _ _ (get_cmd_picked _ _ _ _ _ G)) as (SR & S1 & X1). subst q. simpl in SQ, RQ.
    split; [congruence|]. rewrite <- (pick_rq _ _ _ _ _ (get_cmd_picked _ _ _ _ _ G)). exact RQ.
  - destruct (pick_src _ _ _ _ _ (get_cmd_picked _ _ _ _ _ G)) as (SR & S1 & X1).
    change (state p) with (state p) in F. rewrite <- S1 in F. change (state p1) with (state (set_cmd_id c p1)) in F at 1.
    pose proof (finish_pending _ _ _ _ _ _ _ F SQ). congruence.
  - destruct ET as (T1 & T2 & T3). destruct (sent_pre _ _ _ _ _ I SE T3 CS) as (X & _). subst q. simpl in SQ, RQ.
    split; [rewrite <- (px_state _ _ X); exact SQ|]. rewrite <- (sent_rq _ _ _ _ _ I CS). exact RQ.
  - destruct ET as (T1 & T2 & T3). destruct (sent_pre _ _ _ _ _ I SE T3 CS) as (X & _). eapply EN; [exact E|]. apply (px_state _ _ X).
  - eapply WT; eauto; discriminate.
  - subst q. eapply WT; eauto; discriminate.
  - eapply EN; [exact E|]. apply (px_state _ _ (reply_pre _ _ _ _ _ I P1 R1)).
  - subst q. eapply WT; eauto; discriminate.
  - eapply EN; [exact E|]. simpl. rewrite <- (px_state _ _ (reply_pre _ _ _ _ _ I P1 R1)). unfold stamped. destruct r; cbv zeta; destruct (sc_active _); auto.
  - eapply EN; [exact E|]. apply (px_state _ _ (reply_pre _ _ _ _ _ I P1 R1)).
Qed.

Lemma other_state c p q o : is_update c = false -> cp_do c p = Ok (q, o) -> state q = state p.
Proof.
  destruct c as [e|e c| |enf inst ign other ds| |]; simpl; intros U H; try discriminate.
  - destruct (cp_send_command e p c) as [[p1 ok] o1] eqn:S. simpl in H. injection H as <- <-.
    destruct (send_fx e p c p1 ok o1 S) as [(cq & f & -> & _) N]. reflexivity.
  - injection H as <- <-. reflexivity.
  - injection H as <- <-. unfold cp_modify_flag. destruct other; [reflexivity|]. destruct enf, inst, ign; reflexivity.
  - injection H as <- <-. reflexivity.
  - injection H as <- <-. reflexivity.
Qed.
(* while an entry is online, no event waits for a later refresh *)
Lemma runs_pending k n i h p : cp_runs k n i h p -> state p = SOnline -> rq_event p = false.
Proof.
  induction 1 as [p T N|h p c q o R IH CT D]; intros S.
  - unfold new_pd in N. destruct (i_scbk i); [|destruct (enforce _); [discriminate|]]; injection N as <-; reflexivity.
  - destruct (is_update c) eqn:UC.
    + destruct c; try discriminate. destruct (cp_do_update _ _ _ _ D) as (rc & U). destruct (rq_event q) eqn:RQ; auto.
      destruct (upd_pending e p q rc o (cp_runs_inv _ _ _ _ _ R) CT U S RQ) as (A & B). rewrite (IH A) in B. discriminate.
    + destruct (other_events c p q o UC D) as (_ & E & _). rewrite E. apply IH. rewrite <- (other_state c p q o UC D). exact S.
Qed.

Lemma reports_code l ev : reports l ev -> nth 0 l 0 <> 65 /\ nth 0 l 0 <> 64.
Proof.
  destruct ev; simpl; intros H; try contradiction.
  - destruct H as (_ & -> & _). simpl. lia.
  - destruct H as (-> & _). simpl. lia.
  - destruct H as (-> & _). simpl. lia.
  - destruct H as (fl & -> & _). simpl. repeat destruct (_ =? _); lia.
Qed.

Lemma event_genuine e p q o ev : cp_reach p -> env_typed e -> cp_do (Update e) p = Ok (q, o) -> state p = SOnline -> sc_active (fl p) = true ->
  In (OEv (idx p) ev) o -> is_notif ev = false ->
  exists f l, cp_heard e p f /\ cp_accepted p f /\ f_says true (s_enc (sc p)) (c_mac (sc p)) f l /\ reports l ev /\ f_scb f = true /\
    (17 <= f_sctype f <= 20 \/ (21 <= f_sctype f <= 24 /\ mac_right (s_mac1 (sc p)) (s_mac2 (sc p)) (c_mac (sc p)) f)).
Proof.
  intros R T D S AC IN N. destruct (cp_do_update _ _ _ _ D) as (rc & U). pose proof R as (k & n & i & h & RR).
  destruct (upd_events e p q rc o (cp_reach_inv _ R) (cp_reach_tinv _ R) T U) as [OUT _ _].
  assert (IF : In (OEv (idx p) ev) (filter is_report o)) by (apply filter_In; split; [exact IN|simpl; rewrite N; reflexivity]).
  destruct OUT as [E|[(ev2 & E & TT)|(x & E & NS & _)]]; rewrite E in IF; [destruct IF| |contradiction].
  destruct IF as [IF|[]]. injection IF as ->. destruct TT as [(l & (f & H1 & H2 & H3 & H4) & RP)|(RQ & _)]; [|rewrite (runs_pending _ _ _ _ _ RR S) in RQ; discriminate].
  rewrite AC in H3. specialize (H4 AC). exists f, l. destruct (reports_code _ _ RP) as (C1 & C2).
  unfold genuine in H4. destruct (f_scb f); [|exfalso; tauto]. auto 10.
Qed.
