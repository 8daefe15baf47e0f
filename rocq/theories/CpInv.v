(** CP: the invariant of a PD entry. *)
From Verif Require Import Base ListLemmas Aes AesProofs Rb RbProofs
  Types Sc ScProofs Phy PhyCheck File Pd Cp SpecRx SpecFrame RxProofs PdRx PdCore PhyTx PdTx PdReply
  PdStep PdRun PdWire CpCtx SpecPd SpecCp CpTx CpRx CpStep.
From Coq Require Import ZifyBool ZifyNat.
Ltac Zify.zify_post_hook ::= Z.div_mod_to_equations.
Local Opaque aes_ecb_encrypt aes_cbc_encrypt aes_cbc_decrypt mac_of RB_SIZE.

(* the command of an exchange fits the state *)
Definition cmd_of_state (p : pd) : Prop :=
  match state p with
  | SInit => cmd_id p = 97
  | SCapdet => cmd_id p = 98
  | SChlng => cmd_id p = 118
  | SScrypt => cmd_id p = 119
  | SSetScbk => cmd_id p = 117
  | SOnline => 0 < cmd_id p /\ cmd_id p <> 118 /\ cmd_id p <> 119
  | SOffline => False
  end.

Record cpi (p : pd) : Prop := {
  ci_b : cbinv p;
  ci_phy : phy_state p = PIdle \/ phy_running p = true;
  ci_rx : phy_state p = PReplyWait -> rx_wf p /\ rx_sync p /\ 0 <= seqn p;
  ci_retry : 0 <= retry p <= 8;
  ci_cmd : phy_running p = true -> cmd_of_state p;
  ci_act : sc_active (fl p) = true -> state p = SOnline \/ state p = SSetScbk;
  ci_set : state p = SSetScbk -> use_scbkd (fl p) = true /\ sc_active (fl p) = true;
  ci_rq : rq_restart p = false
}.

Lemma cbinv_gen p q : cbinv p -> pd_mode (fl q) = pd_mode (fl p) -> skip_seq (fl q) = skip_seq (fl p) ->
  rb q = rb p -> pbuf q = pbuf p -> (seqn q = seqn p \/ -1 <= seqn q <= 3) -> reply_id q = reply_id p \/ byte (reply_id q) ->
  (eph q = eph p \/ eph_typed (eph q)) -> caps q = caps p -> (sc q = sc p \/ sc_wf (sc q)) ->
  (cmdq q = cmdq p \/ Forall cmd_typed (cmdq q)) -> cbinv q.
Proof.
  intros [A B C D E F] h1 h2 h3 h4 h5 h6 h7 h8 h9 h10. destruct E as (e1 & e2 & e3 & e4 & e5 & e6).
  constructor; try congruence.
  - unfold rx_base. rewrite h3, h4. auto.
  - destruct h5; lia.
  - apply mk_typed; rewrite ?h4, ?h8; auto.
    + destruct h6 as [->|]; auto.
    + destruct h7 as [->|]; auto.
    + destruct h9 as [->|]; auto.
  - destruct h10 as [->|]; auto.
Qed.

Ltac cbgi I := apply (cbinv_gen _ _ I); auto.
Ltac cbg := match goal with I : cbinv ?p |- _ => cbgi I end.

Lemma blk_zeros : blk (zeros 16). Proof. split; [reflexivity|repeat constructor; unfold byte; lia]. Qed.
Lemma r8_zeros : r8 (zeros 8). Proof. split; [reflexivity|repeat constructor; unfold byte; lia]. Qed.
Lemma r8_rnd r : bytes r -> r8 (firstn 8 (r ++ zeros 8)).
Proof.
  intros B. split; [rewrite firstn_length, app_length; change (length (zeros 8)) with 8%nat; lia|].
  apply bytes_firstn, bytes_app. split; auto. apply r8_zeros.
Qed.

Lemma sc_setup_wf r p : bytes r -> pd_mode (fl p) = false -> sc_wf (sc p) -> sc_wf (sc (sc_setup r p)).
Proof.
  intros B M (A & K & _). unfold sc_setup. rewrite M. cbv zeta. cbn [orb].
  pose proof blk_zeros. pose proof r8_zeros. pose proof (r8_rnd r B).
  assert (K1 : blk (if has_scbk (fl p) then scbk (sc p) else zeros 16)) by (destruct (has_scbk (fl p)); auto).
  generalize dependent (if has_scbk (fl p) then scbk (sc p) else zeros 16). intros k K1.
  generalize dependent (firstn 8 (r ++ zeros 8)). intros r1 R1.
  change (sc_wf (mkSc k (zeros 16) (zeros 16) (zeros 16) (zeros 16) (zeros 16) r1 (zeros 8) (zeros 8) (zeros 16) (zeros 16))).
  generalize dependent (zeros 16). generalize dependent (zeros 8). intros z8 Z8 z16 Z16.
  split; [|split; [exact K1|split; [exact R1|split; [exact Z8|split; [exact Z8|split; exact Z16]]]]].
  destruct Z16. repeat split; auto.
Qed.

Lemma sc_setup_fields r p : exists s, sc_setup r p = set_sc s p.
Proof. unfold sc_setup. cbv zeta. destruct (pd_mode (fl p)); eauto. Qed.

Lemma cbinv_setup r p : cbinv p -> bytes r -> cbinv (sc_setup r p).
Proof.
  intros I B. assert (W : sc_wf (sc (sc_setup r p))) by (apply sc_setup_wf; auto; apply I).
  destruct (sc_setup_fields r p) as (s & E). rewrite E in *. cbg.
Qed.

(* end of the state machine run: what the invariant needs *)
Record fin_pre (p : pd) : Prop := {
  fp_b : cbinv p;
  fp_phy : phy_state p = PIdle;
  fp_retry : 0 <= retry p <= 8;
  fp_act : sc_active (fl p) = true -> state p = SOnline \/ state p = SSetScbk;
  fp_rq : rq_restart p = true -> state p = SOnline /\ sc_active (fl p) = false
}.

Lemma st_eqb_eq a b : st_eqb a b = true <-> a = b.
Proof. split; [|intros ->; destruct b; reflexivity]. destruct a, b; simpl; congruence. Qed.

Lemma keyset_complete_fx e p q o : keyset_complete e p = Ok (q, o) -> cbinv p ->
  cbinv q /\ phy_state q = phy_state p /\ retry q = retry p /\ sc_active (fl q) = false /\ state q = state p /\
  use_scbkd (fl q) = false /\
  rq_restart q = (if st_eqb (state p) SOnline then true else rq_restart p) /\
  o = notify e q 1 0 0.
Proof.
  unfold keyset_complete. intros H I.
  assert (G : forall p1, cbinv p1 -> phy_state p1 = phy_state p -> retry p1 = retry p -> state p1 = state p -> use_scbkd (fl p1) = false ->
     rq_restart p1 = rq_restart p ->
     (let p2 := sc_deactivate p1 in
      let o := notify_sc_status e p2 in
      Ok (match state p2 with SOnline => set_rq_restart true p2 | _ => p2 end, o)) = Ok (q, o) ->
     cbinv q /\ phy_state q = phy_state p /\ retry q = retry p /\ sc_active (fl q) = false /\ state q = state p /\ use_scbkd (fl q) = false /\
     rq_restart q = (if st_eqb (state p) SOnline then true else rq_restart p) /\
  o = notify e q 1 0 0).
  { intros p1 I1 A B C D E X. cbv zeta in X.
    assert (O : notify_sc_status e (sc_deactivate p1) = notify e p1 1 0 0).
    { unfold notify_sc_status. change (use_scbkd (fl (sc_deactivate p1))) with (use_scbkd (fl p1)). rewrite D. reflexivity. }
    rewrite O in X. clear O. change (state (sc_deactivate p1)) with (state p1) in X.
    assert (I2 : cbinv (sc_deactivate p1)) by (cbg).
    assert (I3 : cbinv (set_rq_restart true (sc_deactivate p1))) by (cbg).
    destruct (state p1) eqn:S; injection X as <- <-; rewrite <- C; cbn [st_eqb]; auto 12. }
  destruct (negb (use_scbkd (fl p))) eqn:U.
  - destruct (eph p) as [| | [] | |] eqn:EP; cbn [bind] in H; try discriminate.
    destruct (take_arr _ 16) as [d| |] eqn:TA; cbn [bind] in H; try discriminate.
    assert (TE : bytes data).
    { pose proof (proj1 (proj2 (cv_ty _ I))) as X. rewrite EP in X. exact X. }
    apply take_arr_bytes in TA as (B1 & B2 & _); auto.
    apply (G (set_scbk d p)); auto.
    + cbg. right. change (sc_wf (cset_scbk d (sc p))). apply wf_scbk; [apply I|]. split; auto. unfold zlen in B2. lia.
    + simpl. destruct (use_scbkd (fl p)); auto; discriminate.
  - cbn [bind] in H. apply (G (set_use_scbkd false p)); auto. cbg.
Qed.

Record next_fx (p p1 : pd) (n1 : cpstate) (o1 : list out) : Prop := {
  nf_b : cbinv p1;
  nf_phy : phy_state p1 = phy_state p;
  nf_retry : retry p1 = retry p;
  nf_state : state p1 = state p;
  nf_rq : rq_restart p1 = rq_restart p;
  nf_act : sc_active (fl p1) = true -> n1 = SOnline \/ n1 = SSetScbk \/ n1 = SOffline;
  nf_act1 : sc_active (fl p) = false -> sc_active (fl p1) = true -> state p = SScrypt;
  nf_set : n1 = SSetScbk -> use_scbkd (fl p1) = true /\ sc_active (fl p1) = true /\ state p = SScrypt;
  nf_out : no_tx o1
}.

Lemma no_tx_notify e p a b c : no_tx (notify e p a b c).
Proof. unfold notify. destruct (_ && _); intros d X; simpl in X; intuition discriminate. Qed.

Lemma no_tx_cb e p : no_tx (do_event_callback e p).
Proof. unfold do_event_callback. destruct (e_evcb e); [destruct (eph p)|]; intros d X; simpl in X; intuition discriminate. Qed.

Lemma next_fx_ok e p ok p1 n1 o1 : (if ok : bool then next_ok_state e p else Ok (next_err_state e p)) = Ok (p1, n1, o1) ->
  fin_pre p -> next_fx p p1 n1 o1.
Proof.
  intros H [I PH RT AC RQ]. destruct ok.
  - unfold next_ok_state in H. destruct (state p) eqn:S.
    + inv H. constructor; auto; try apply no_tx_nil; try discriminate. intros X. destruct (AC X); discriminate. congruence.
    + assert (NA : sc_active (fl p) = false) by (destruct (sc_active (fl p)); auto; destruct (AC eq_refl); discriminate).
      assert (cbinv (set_use_scbkd false p)) by cbg.
      destruct (sc_is_capable p); [|destruct (enforce (fl p))]; inv H; constructor; auto; try apply no_tx_nil; try discriminate;
        simpl; rewrite NA; congruence.
    + assert (NA : sc_active (fl p) = false) by (destruct (sc_active (fl p)); auto; destruct (AC eq_refl); discriminate).
      inv H. constructor; auto; try apply no_tx_nil; try discriminate; rewrite NA; congruence.
    + assert (NA : sc_active (fl p) = false) by (destruct (sc_active (fl p)); auto; destruct (AC eq_refl); discriminate).
      assert (I1 : cbinv (set_sc_active true p)) by cbg.
      assert (I2 : cbinv (fill_local_keyset (set_sc_active true p))).
      { cbg. right. simpl. apply I. }
      cbv zeta in H. change (use_scbkd (fl (set_sc_active true p))) with (use_scbkd (fl p)) in H.
      destruct (use_scbkd (fl p)) eqn:U; inv H; constructor; auto; try apply no_tx_notify; try discriminate.
    + destruct (keyset_complete e p) as [[p2 o2]| |] eqn:K; cbn [bind] in H; try discriminate. simpl in H. inv H.
      apply keyset_complete_fx in K as (k1 & k2 & k3 & k4 & k5 & k6 & k7 & ->); auto.
      rewrite S in k7. constructor; auto; try apply no_tx_notify; try discriminate; try congruence.
    + inv H. constructor; auto; try apply no_tx_nil.
      * intros X. unfold sc_should_retry. rewrite X. rewrite andb_false_r. auto.
      * intros X Y. congruence.
      * destruct (sc_should_retry e p1); discriminate.
    + assert (NA : sc_active (fl p) = false) by (destruct (sc_active (fl p)); auto; destruct (AC eq_refl); discriminate).
      inv H. constructor; auto; try apply no_tx_nil; try (rewrite NA; congruence). destruct (_ >? _); discriminate.
  - injection H as H. unfold next_err_state in H. destruct (state p) eqn:S.
    + inv H. constructor; auto; try apply no_tx_nil; try discriminate; intros; congruence.
    + inv H. constructor; auto; try apply no_tx_nil; try discriminate; intros; congruence.
    + assert (NA : sc_active (fl p) = false) by (destruct (sc_active (fl p)); auto; destruct (AC eq_refl); discriminate).
      assert (I1 : cbinv (set_use_scbkd true p)) by cbg.
      assert (I2 : cbinv (set_sc_tstamp (e_now e) (set_use_scbkd false p))) by cbg.
      destruct (enforce (fl p)); [|destruct (negb (use_scbkd (fl p)))]; inv H; constructor; auto; try apply no_tx_nil; try discriminate;
        simpl; rewrite NA; congruence.
    + assert (NA : sc_active (fl p) = false) by (destruct (sc_active (fl p)); auto; destruct (AC eq_refl); discriminate).
      inv H. constructor; auto; try apply no_tx_nil; try (rewrite NA; congruence). destruct (enforce _); discriminate.
    + cbv zeta in H. inv H. assert (I1 : cbinv (sc_deactivate p)) by cbg.
      constructor; auto; try apply no_tx_notify; try discriminate.
      destruct (_ || _); discriminate.
    + inv H. constructor; auto; try apply no_tx_nil; try discriminate. congruence.
    + inv H. constructor; auto; try apply no_tx_nil; try discriminate. congruence.
Qed.

(* the requests that are carried out *)
Record req_fx (e : env) (p1 p2 : pd) (n1 n2 : cpstate) (o2 : list out) : Prop := {
  rf_b : cbinv p2;
  rf_phy : phy_state p1 = PIdle -> phy_state p2 = PIdle;
  rf_retry : retry p2 = retry p1 \/ retry p2 = 0;
  rf_state : state p2 = state p1;
  rf_fl : fl p2 = fl p1;
  rf_rq : rq_restart p2 = true -> rq_restart p1 = true /\ state p1 <> SOnline;
  rf_next : n2 = n1 \/ (n2 = SChlng /\ rq_restart p1 = true) \/ (n2 = SOffline /\ rq_offline p1 = true);
  rf_out : no_tx o2
}.

Lemma do_requests_fx e p1 n1 p2 n2 o2 : do_requests e p1 n1 = (p2, n2, o2) -> cbinv p1 -> req_fx e p1 p2 n1 n2 o2.
Proof.
  intros H I. unfold do_requests in H. destruct (_ || _) eqn:ON.
  - assert (Ia : cbinv (state_reset true (set_rq_restart false p1))) by (cbgi I; right; simpl; lia).
    assert (Ib : cbinv (set_rq_offline false (state_reset true (set_rq_restart false p1)))) by (cbgi I; right; simpl; lia).
    assert (Ic : cbinv (set_rq_offline false p1)) by (cbgi I).
    assert (Id : cbinv (set_rq_event false (state_reset true (set_rq_restart false p1)))) by (cbgi I; right; simpl; lia).
    assert (Ie : cbinv (set_rq_event false (set_rq_offline false (state_reset true (set_rq_restart false p1))))) by (cbgi I; right; simpl; lia).
    assert (If : cbinv (set_rq_event false (set_rq_offline false p1))) by (cbgi I).
    assert (Ig : cbinv (set_rq_event false p1)) by (cbgi I).
    destruct (rq_restart p1) eqn:R1.
    + change (rq_offline (state_reset true (set_rq_restart false p1))) with (rq_offline p1) in H.
      destruct (rq_offline p1) eqn:R2.
      * change (rq_event (set_rq_offline false (state_reset true (set_rq_restart false p1)))) with (rq_event p1) in H.
        destruct (rq_event p1) eqn:R3; inv H; constructor; auto; try apply no_tx_nil; try apply no_tx_cb; simpl; discriminate.
      * change (rq_event (state_reset true (set_rq_restart false p1))) with (rq_event p1) in H.
        destruct (rq_event p1) eqn:R3; inv H; constructor; auto; try apply no_tx_nil; try apply no_tx_cb; simpl; discriminate.
    + destruct (rq_offline p1) eqn:R2.
      * change (rq_event (set_rq_offline false p1)) with (rq_event p1) in H.
        destruct (rq_event p1) eqn:R3; inv H; constructor; auto; try apply no_tx_nil; try apply no_tx_cb; simpl; congruence.
      * destruct (rq_event p1) eqn:R3; inv H; constructor; auto; try apply no_tx_nil; try apply no_tx_cb; simpl; congruence.
  - inv H. constructor; auto; try apply no_tx_nil. intros X. split; auto. intros Y. rewrite Y in ON. discriminate.
Qed.

Lemma state_change_fx e p n q o : state_change e p n = (q, o) -> cbinv p -> bytes (e_rand e) ->
  cbinv q /\ (phy_state p = PIdle -> phy_state q = PIdle) /\ (retry q = retry p \/ retry q = 0) /\ state q = n /\
  use_scbkd (fl q) = use_scbkd (fl p) /\ (sc_active (fl q) = true -> sc_active (fl p) = true /\ n <> SOffline) /\
  (n <> SOffline -> sc_active (fl q) = sc_active (fl p)) /\ rq_restart q = rq_restart p /\ no_tx o.
Proof.
  intros H I B. unfold state_change in H.
  assert (Ia : cbinv (set_state SInit (state_reset true p))) by (cbgi I; right; simpl; lia).
  assert (Ib : forall n, cbinv (set_state n p)) by (intros; cbgi I).
  assert (Ic : cbinv (set_state SOffline (sc_deactivate (set_wait_ms ONLINE_RETRY_WAIT_MAX (set_tstamp (e_now e) p))))) by (cbgi I).
  assert (Id : cbinv (set_state SChlng (sc_setup (e_rand e) p))).
  { pose proof (cbinv_setup _ _ I B) as J. cbgi J. }
  destruct (sc_setup_fields (e_rand e) p) as (s & E). rewrite E in *.
  destruct n; inv H; simpl; repeat (split; [solve [auto; congruence|tauto|intuition congruence]|]);
    try apply no_tx_nil; try apply no_tx_notify; try (apply no_tx_app; apply no_tx_notify).
Qed.

Lemma finish_inv e p ok o0 q rc o : finish_update e (state p) p ok o0 = Ok (q, rc, o) -> fin_pre p -> bytes (e_rand e) ->
  cpi q /\ exists o9, o = o0 ++ o9 /\ no_tx o9.
Proof.
  intros H FP B. unfold finish_update in H.
  destruct (if ok then _ else _) as [[[p1 n1] o1]| |] eqn:NX; cbn [bind] in H; try discriminate.
  pose proof (next_fx_ok e p ok p1 n1 o1 NX FP) as [N1 N2 N3 N4 N5 N6 N7 N8 N9].
  destruct (do_requests e p1 n1) as [[p2 n2] o2] eqn:DR.
  destruct (do_requests_fx _ _ _ _ _ _ DR N1) as [R1 R2 R3 R4 R5 R6 R7 R8].
  destruct FP as [I PH RT AC RQ].
  assert (NR : rq_restart p2 = false).
  { destruct (rq_restart p2) eqn:X; auto. destruct (R6 eq_refl) as [Y1 Y2]. rewrite N5 in Y1. rewrite N4 in Y2.
    destruct (RQ Y1). contradiction. }
  assert (PI : phy_state p2 = PIdle) by (apply R2; congruence).
  assert (RR : 0 <= retry p2 <= 8) by (destruct R3 as [->| ->]; lia).
  assert (A2 : sc_active (fl p2) = true -> n2 = SOnline \/ n2 = SSetScbk \/ n2 = SOffline).
  { rewrite R5. intros X. destruct R7 as [->|[(-> & Y)|(-> & _)]]; auto.
    rewrite N5 in Y. destruct (RQ Y) as [Z1 Z2]. specialize (N7 Z2 X). congruence. }
  assert (S2 : n2 = SSetScbk -> use_scbkd (fl p2) = true /\ sc_active (fl p2) = true /\ state p = SScrypt).
  { intros ->. rewrite R5. destruct R7 as [<-|[(X & _)|(X & _)]]; try discriminate. auto. }
  destruct (st_eqb (state p) n2) eqn:SE.
  - apply st_eqb_eq in SE. inv H. split.
    + constructor; auto.
      * rewrite PI. discriminate.
      * unfold phy_running. rewrite PI. discriminate.
      * rewrite R4, N4. intros X. destruct (A2 X) as [Y|[Y|Y]]; auto; try congruence.
        destruct (AC ltac:(rewrite R5 in X; destruct (sc_active (fl p)) eqn:Z; auto; specialize (N7 eq_refl X); congruence)); congruence.
      * rewrite R4, N4. intros X. destruct S2 as (S3 & S4 & S5); [congruence|auto].
    + exists (o1 ++ o2). split; auto. apply no_tx_app; auto.
  - destruct (state_change e p2 n2) as [p3 o3] eqn:SC. inv H.
    apply state_change_fx in SC as (c1 & c2 & c3 & c4 & c5 & c6 & c7 & c8 & c9); auto. split.
    + constructor; auto; try congruence.
      * rewrite (c2 PI). discriminate.
      * destruct c3 as [->| ->]; lia.
      * unfold phy_running. rewrite (c2 PI). discriminate.
      * intros X. destruct (c6 X) as [Y Z]. rewrite c4. destruct (A2 Y) as [|[|]]; auto; contradiction.
      * rewrite c4, c5. intros X. destruct (S2 X) as (X1 & X2 & X3). split; auto. rewrite c7; congruence.
    + exists (o1 ++ o2 ++ o3). split; auto. apply no_tx_app; auto. apply no_tx_app; auto.
Qed.

Lemma check_reply_fx e p q st o : state_check_reply e p = Ok (q, st, o) -> cbinv p -> rq_restart p = false ->
  cbinv q /\ phy_state q = phy_state p /\ retry q = retry p /\ state q = state p /\ no_tx o /\
  (sc_active (fl q) = true -> sc_active (fl p) = true) /\
  (rq_restart q = true -> state p = SOnline /\ sc_active (fl q) = false /\ cmd_id p = 117 /\ reply_id p = 64 /\ st = true) /\
  (q = p \/ rq_restart q = true).
Proof.
  intros H I R. unfold state_check_reply in H. cbv zeta in H.
  assert (G : forall b, Ok (p, b, []) = Ok (q, st, o) ->
     cbinv q /\ phy_state q = phy_state p /\ retry q = retry p /\ state q = state p /\ no_tx o /\
  (sc_active (fl q) = true -> sc_active (fl p) = true) /\
  (rq_restart q = true -> state p = SOnline /\ sc_active (fl q) = false /\ cmd_id p = 117 /\ reply_id p = 64 /\ st = true) /\
  (q = p \/ rq_restart q = true)).
  { intros b X. inv X. repeat (split; [solve [auto|apply no_tx_nil|congruence]|]). auto. }
  destruct (state p) eqn:S; try (eapply G; eauto; fail).
  unfold check_online_response in H. cbv zeta in H.
  destruct (reply_id p =? REPLY_ACK) eqn:RA.
  - destruct (cmd_id p =? CMD_KEYSET) eqn:CK; [|eapply G; eauto].
    destruct (keyset_complete e p) as [[p2 o2]| |] eqn:K; cbn [bind] in H; try discriminate. simpl in H. inv H.
    apply keyset_complete_fx in K as (k1 & k2 & k3 & k4 & k5 & k6 & k7 & ->); auto.
    rewrite S in k7. cbn [st_eqb] in k7. apply Z.eqb_eq in RA, CK.
    split; [auto|]. split; [auto|]. split; [auto|]. split; [congruence|]. split; [apply no_tx_notify|].
    split; [congruence|]. split; [auto|]. auto.
  - destruct ((reply_id p =? REPLY_NAK) || (reply_id p =? REPLY_INVALID)); [eapply G; eauto|].
    destruct (cmd_id p =? CMD_POLL); eapply G; eauto.
Qed.

Lemma no_tx_cmdst e p st : no_tx (notify_command_status e p st).
Proof. unfold notify_command_status. destruct (app_cmd_of p); [apply no_tx_notify|apply no_tx_nil]. Qed.

Lemma cbinv_reset p : cbinv p -> cbinv (state_reset false p).
Proof. intros I. cbgi I. Qed.

Lemma ended_inv e ok p1 o1 q o : ended e (state p1) ok p1 o1 q o -> cbinv p1 -> 0 <= retry p1 <= 8 ->
  (sc_active (fl p1) = true -> state p1 = SOnline \/ state p1 = SSetScbk) -> rq_restart p1 = false -> bytes (e_rand e) ->
  cpi q /\ exists o9, o = o1 ++ o9 /\ no_tx o9.
Proof.
  intros (p2 & st & o2 & C & F) I R A Q B.
  apply check_reply_fx in C as (c1 & c2 & c3 & c4 & c5 & c6 & c7 & _); auto.
  assert (FP : fin_pre (state_reset false p2)).
  { constructor; auto.
    - apply cbinv_reset; auto.
    - change (0 <= retry p2 <= 8). lia.
    - intros X. change (state p2 = SOnline \/ state p2 = SSetScbk). rewrite c4. auto.
    - intros X. change (state p2 = SOnline /\ sc_active (fl p2) = false). rewrite c4.
      destruct (c7 X) as (X1 & X2 & _). auto. }
  rewrite <- c4 in F. change (state p2) with (state (state_reset false p2)) in F.
  apply finish_inv in F as [K (o9 & E & N)]; auto. split; auto.
  exists (o2 ++ notify_command_status e p2 st ++ o9). split.
  - rewrite E, <- !app_assoc. reflexivity.
  - apply no_tx_app; auto. apply no_tx_app; auto. apply no_tx_cmdst.
Qed.

(* choice of a command *)
Record pick_fx (p p1 : pd) (c : Z) (o : list out) : Prop := {
  pf_b : cbinv p1;
  pf_phy : phy_state p1 = phy_state p;
  pf_retry : retry p1 = retry p;
  pf_state : state p1 = state p;
  pf_rq : rq_restart p1 = rq_restart p;
  pf_fl : fl p1 = fl p;
  pf_cmd : 0 < c -> cmd_of_state (set_cmd_id c p1);
  pf_seq : seqn p1 = seqn p;
  pf_sc : sc p1 = sc p;
  pf_out : no_tx o
}.

Lemma get_cmd_fx e p p1 c o : state_get_cmd e p = Ok (p1, c, o) -> cbinv p -> pick_fx p p1 c o.
Proof.
  intros H I. unfold state_get_cmd in H.
  assert (G : forall k, 0 < k -> (match state p with
     | SInit => k = 97 | SCapdet => k = 98 | SChlng => k = 118 | SScrypt => k = 119 | SSetScbk => k = 117
     | SOnline => 0 < k /\ k <> 118 /\ k <> 119 | SOffline => False end) -> Ok (p, k, []) = Ok (p1, c, o) -> pick_fx p p1 c o).
  { intros k K S X. inv X. constructor; auto; try apply no_tx_nil. }
  destruct (state p) eqn:S; try (eapply G; [| |exact H]; reflexivity).
  - unfold get_online_command in H. destruct (cmdq p) as [|k cq] eqn:CQ.
    + destruct (file_tx_get_command e p) as [[p2 c2] o2] eqn:FT.
      assert (FX : (exists f, p2 = set_file f p) /\ (c2 = 0 \/ c2 = -1 \/ c2 = 162 \/ c2 = 96 \/ c2 = 124) /\ no_tx o2).
      { assert (E0 : exists f, p = set_file f p) by (exists (file p); destruct p; reflexivity).
        unfold file_tx_get_command in FT. destruct (file p) as [f|] eqn:FP; [|inv FT; split; auto; split; auto; apply no_tx_nil].
        assert (FT2 : forall b : bool, (if b then let (p1, o) := file_tx_abort p in (p1, 162, o)
                 else if negb (f_wait f =? 0) && (e_now e - f_tstamp f <? f_wait f) then (p, if Z.testbit (f_flags f) FB_EXCLUSIVE then -1 else 0, [])
                 else if Z.testbit (f_flags f) FB_POLL then (p, 96, []) else (p, 124, [])) = (p2, c2, o2) ->
           (exists f, p2 = set_file f p) /\ (c2 = 0 \/ c2 = -1 \/ c2 = 162 \/ c2 = 96 \/ c2 = 124) /\ no_tx o2).
        { intros [|] X.
          - unfold file_tx_abort in X. rewrite FP in X. destruct (in_progress f); inv X; (split; [eauto|split; [auto|]]);
              [intros d [Y|[]]; discriminate|apply no_tx_nil].
          - destruct (negb (f_wait f =? 0) && _); [|destruct (Z.testbit _ _)]; inv X; (split; [eauto|split; [|apply no_tx_nil]]); auto 6.
            match goal with |- (if ?b then _ else _) = _ \/ _ => destruct b end; auto. }
        destruct (f_state f); try (eapply FT2; eauto; fail); inv FT; split; auto; split; auto; apply no_tx_nil. }
      destruct FX as ((f & ->) & C2 & N2).
      assert (I2 : cbinv (set_file f p)) by (cbgi I).
      destruct (negb (c2 =? 0)) eqn:Z.
      * inv H. constructor; auto. intros P. unfold cmd_of_state. simpl. rewrite S. cbv iota. lia.
      * destruct (_ >? POLL_TIMEOUT); inv H.
        -- assert (I3 : cbinv (set_tstamp (e_now e) (set_file f p))) by (cbgi I).
           constructor; auto. intros P. unfold cmd_of_state. simpl. rewrite S. cbv iota. unfold CMD_POLL. lia.
        -- constructor; auto. lia.
    + assert (TY : cmd_typed k /\ Forall cmd_typed cq).
      { pose proof (cv_cmdq _ I) as X. rewrite CQ in X. inv X. auto. }
      assert (I2 : cbinv (set_eph (EphCmd k) (set_cmdq cq p))) by (cbgi I; right; simpl; apply TY).
      unfold translate_cmd in H. cbv zeta in H.
      assert (T : forall m, Ok (fst (set_eph (EphCmd k) (set_cmdq cq p), m), snd (set_eph (EphCmd k) (set_cmdq cq p), m), []) = Ok (p1, c, o) ->
         (0 < m -> m <> 118 /\ m <> 119) -> pick_fx p p1 c o).
      { intros m X M. simpl in X. inv X. constructor; auto; try apply no_tx_nil. intros P. unfold cmd_of_state. simpl. rewrite S. cbv iota.
        specialize (M P). lia. }
      destruct k; cbn [bind] in H; try discriminate; eapply T; try exact H;
        try (intros _; unfold CMD_OUT, CMD_LED, CMD_BUZ, CMD_TEXT, CMD_COMSET, CMD_MFG; lia);
        repeat dif; unfold CMD_ISTAT, CMD_OSTAT, CMD_LSTAT, CMD_RSTAT, CMD_KEYSET; lia.
  - inv H. constructor; auto; try apply no_tx_nil. lia.
Qed.

Lemma hs_of_cmd p : cpi p -> phy_running p = true -> hs_ok p.
Proof.
  intros C R A. pose proof (ci_cmd _ C R) as K. destruct (ci_act _ C A) as [S|S]; unfold cmd_of_state in K; rewrite S in K;
    unfold in_sc_handshake, CMD_CHLNG, CMD_SCRYPT; lia.
Qed.

Lemma cpi_case e p q rc o : cpi p -> env_typed e -> state_update e p = Ok (q, rc, o) -> upd_case e p q rc o.
Proof.
  intros C T H. eapply state_update_case; eauto.
  - apply C.
  - intros; apply hs_of_cmd; auto.
  - intros X. destruct (ci_phy _ C) as [Y|Y]; [congruence|]. unfold phy_running in Y. rewrite X in Y. discriminate.
  - intros X. destruct (ci_phy _ C) as [Y|Y]; [congruence|]. unfold phy_running in Y. rewrite X in Y. discriminate.
  - intros X. destruct (ci_rx _ C X) as (A & _ & B). auto.
Qed.

Lemma cbinv_phy s p : cbinv p -> cbinv (set_phy_state s p).
Proof. intros I. cbgi I. Qed.

Lemma stamped_fx e r p : exists a b, stamped e r p = set_tstamp a (set_sc_tstamp b p).
Proof.
  unfold stamped. cbv zeta. destruct r; simpl; destruct (sc_active (fl p)) eqn:A; simpl; rewrite ?A;
    try (exists (e_now e), (e_now e); reflexivity);
    try (exists (tstamp p), (e_now e); destruct p; reflexivity);
    try (exists (e_now e), (sc_tstamp p); destruct p; reflexivity);
    exists (tstamp p), (sc_tstamp p); destruct p; reflexivity.
Qed.

Lemma sending_phy e p : sending e p -> phy_running p = true.
Proof. unfold phy_running. intros [->|[-> _]]; auto. Qed.

Lemma tx_out_app a b : no_tx b -> forall d, In (OTx d) (a ++ b) -> In (OTx d) a.
Proof. intros N d X. apply in_app_iff in X as [X|X]; auto. destruct (N _ X). Qed.

Lemma upd_inv e p q rc o : cpi p -> env_typed e -> upd_case e p q rc o -> cpi q.
Proof.
  intros C (T1 & T2 & T3) U.
  pose proof (ci_b _ C) as I.
  destruct U as [P L ->|p1 c o P G K ->|p1 c o1 o P G K F|p1 o SD CS ->|p1 o1 o SD CS E|P RC L|p1 P RC L RT ->
                |p1 o P RC L RT E|p1 o P RC ->|p1 r o1 o P RC K E|p1 r o1 o P RC K E].
  - auto.
  - destruct (get_cmd_fx _ _ _ _ _ G I) as [g1 g2 g3 g4 g5 g6 g7 g8 g9 g10].
    assert (I1 : cbinv (set_phy_state PSend (set_cmd_id c p1))) by (cbgi g1).
    constructor; auto; try discriminate; simpl.
    + rewrite g3. apply C.
    + rewrite g6, g4. apply C.
    + rewrite g6, g4. apply C.
    + rewrite g5. apply C.
  - destruct (get_cmd_fx _ _ _ _ _ G I) as [g1 g2 g3 g4 g5 g6 g7 g8 g9 g10].
    assert (I1 : cbinv (set_cmd_id c p1)) by (cbgi g1).
    assert (FP : fin_pre (set_cmd_id c p1)).
    { constructor; auto; simpl; rewrite ?g2, ?g3, ?g4, ?g5, ?g6; auto; try apply C. rewrite (ci_rq _ C). discriminate. }
    rewrite <- g4 in F. change (state p1) with (state (set_cmd_id c p1)) in F. apply finish_inv in F as [F _]; auto.
  - assert (I1 : cbinv (set_phy_state PSend p)) by (apply cbinv_phy; auto).
    assert (S69 : 69 <= tx_buf_size p).
    { destruct CS as [(_ & _ & X & _)|(X & _)]; [discriminate|exact X]. }
    apply cmd_sent_fx in CS; auto. destruct CS as [s1 s2 s3 s4 s5].
    pose proof (tcore_fields _ _ s1) as (t1 & t2 & t3 & t4 & t5 & t6 & t7 & t8 & t9 & t10 & t11 & t12 & t13 & t14 & t15 & t16 & t17 & t18 & t19 & t20 & t21 & t22 & t23 & t24 & t25 & t26 & t27 & t28).
    assert (I2 : cbinv (set_phy_tstamp (e_now e) (set_phy_state PReplyWait (set_reply_id 0 (state_reset false p1))))).
    { cbgi s2. right. simpl. unfold byte. lia. }
    constructor; auto.
    + intros _. split; [split; [apply I2|]|split].
      * left. simpl. lia.
      * intros X. simpl in X. lia.
      * simpl. rewrite (proj1 s3 S69). apply seq_next_range. apply I.
    + simpl. rewrite t4. apply C.
    + intros _. pose proof (ci_cmd _ C (sending_phy _ _ SD)) as X. unfold cmd_of_state in *. simpl. simpl in t2, t12. rewrite t2, t12. auto.
    + simpl. simpl in t2, t21. rewrite t2, t21. apply C.
    + simpl. simpl in t2, t20, t21. rewrite t2, t20, t21. apply C.
    + simpl. simpl in t9. rewrite t9. apply C.
  - assert (I1 : cbinv (set_phy_state PSend p)) by (apply cbinv_phy; auto).
    apply cmd_sent_fx in CS; auto. destruct CS as [s1 s2 s3 s4 s5].
    pose proof (tcore_fields _ _ s1) as (t1 & t2 & t3 & t4 & t5 & t6 & t7 & t8 & t9 & t10 & t11 & t12 & t13 & t14 & t15 & t16 & t17 & t18 & t19 & t20 & t21 & t22 & t23 & t24 & t25 & t26 & t27 & t28).
    simpl in t2, t4, t21, t9. rewrite <- t2 in E. change (state p1) with (state (set_phy_state PErr p1)) in E.
    apply ended_inv in E as [E _]; auto; simpl; rewrite ?t2, ?t4, ?t21, ?t9; try apply C. apply cbinv_phy; auto.
  - destruct (ci_rx _ C P) as (W & Y & Q). apply reply_case_fx in RC; auto. destruct RC as [c1 c2 c3 c4 c5 c6 c7 c8 c9 c10].
    destruct (c10 eq_refl) as (w1 & w2 & w3 & w4 & w5 & w6).
    pose proof (wcore_fields _ _ c1) as (v1 & v2 & v3 & v4 & v5 & v6 & v7 & v8 & v9 & v10 & v11 & v12 & v13 & v14 & v15 & v16 & v17 & v18 & v19 & _).
    constructor; auto.
    + right. unfold phy_running. rewrite v3, P. auto.
    + intros _. split; auto. split; auto. destruct c9 as [[X|X] _]; [discriminate|lia].
    + rewrite v4. apply C.
    + intros _. assert (X : cmd_of_state p) by (apply (ci_cmd _ C); unfold phy_running; rewrite P; auto).
      unfold cmd_of_state in *. rewrite v2, v9. auto.
    + intros X. rewrite v2. apply (ci_act _ C); auto.
    + rewrite v2. intros X. destruct (ci_set _ C X) as [X1 X2]. split; auto. rewrite c8; auto. discriminate.
    + rewrite v8. apply C.
  - destruct (ci_rx _ C P) as (W & Y & Q). apply reply_case_fx in RC; auto. destruct RC as [c1 c2 c3 c4 c5 c6 c7 c8 c9 c10].
    pose proof (wcore_fields _ _ c1) as (v1 & v2 & v3 & v4 & v5 & v6 & v7 & v8 & v9 & v10 & v11 & v12 & v13 & v14 & v15 & v16 & v17 & v18 & v19 & _).
    constructor; try discriminate; simpl; auto.
    + cbgi c2.
    + pose proof (ci_retry _ C). lia.
    + intros _. assert (X : cmd_of_state p) by (apply (ci_cmd _ C); unfold phy_running; rewrite P; auto).
      unfold cmd_of_state in *. simpl. rewrite v2, v9. auto.
    + intros X. rewrite v2. apply (ci_act _ C); auto.
    + rewrite v2. intros X. destruct (ci_set _ C X) as [X1 X2]. split; auto. rewrite c8; auto. discriminate.
    + rewrite v8. apply C.
  - destruct (ci_rx _ C P) as (W & Y & Q). apply reply_case_fx in RC; auto. destruct RC as [c1 c2 c3 c4 c5 c6 c7 c8 c9 c10].
    pose proof (wcore_fields _ _ c1) as (v1 & v2 & v3 & v4 & v5 & v6 & v7 & v8 & v9 & v10 & v11 & v12 & v13 & v14 & v15 & v16 & v17 & v18 & v19 & _).
    rewrite <- v2 in E. change (state p1) with (state (set_phy_state PErr p1)) in E.
    apply ended_inv in E as [E _]; auto; simpl; rewrite ?v2, ?v4, ?v8; try apply C; [apply cbinv_phy; auto|]. intros X. apply (ci_act _ C); auto.
  - destruct (ci_rx _ C P) as (W & Y & Q). apply reply_case_fx in RC; auto. destruct RC as [c1 c2 c3 c4 c5 c6 c7 c8 c9 c10].
    pose proof (wcore_fields _ _ c1) as (v1 & v2 & v3 & v4 & v5 & v6 & v7 & v8 & v9 & v10 & v11 & v12 & v13 & v14 & v15 & v16 & v17 & v18 & v19 & _).
    constructor; try discriminate; simpl; auto.
    + cbgi c2.
    + rewrite v4. apply C.
    + intros _. assert (X : cmd_of_state p) by (apply (ci_cmd _ C); unfold phy_running; rewrite P; auto).
      unfold cmd_of_state in *. simpl. rewrite v2, v9. auto.
    + intros X. rewrite v2. apply (ci_act _ C); auto.
    + rewrite v2. intros X. destruct (ci_set _ C X) as [X1 X2]. split; auto. rewrite c8; auto. discriminate.
    + rewrite v8. apply C.
  - destruct (ci_rx _ C P) as (W & Y & Q). apply reply_case_fx in RC; auto. destruct RC as [c1 c2 c3 c4 c5 c6 c7 c8 c9 c10].
    pose proof (wcore_fields _ _ c1) as (v1 & v2 & v3 & v4 & v5 & v6 & v7 & v8 & v9 & v10 & v11 & v12 & v13 & v14 & v15 & v16 & v17 & v18 & v19 & _).
    destruct (stamped_fx e r p1) as (a & b & ES). rewrite ES in E.
    rewrite <- v2 in E. change (state p1) with (state (set_phy_state PDone (set_tstamp a (set_sc_tstamp b p1)))) in E.
    apply ended_inv in E as [E _]; auto; simpl; rewrite ?v2, ?v4, ?v8; try apply C; [cbgi c2|]. intros X. apply (ci_act _ C); auto.
  - destruct (ci_rx _ C P) as (W & Y & Q). apply reply_case_fx in RC; auto. destruct RC as [c1 c2 c3 c4 c5 c6 c7 c8 c9 c10].
    pose proof (wcore_fields _ _ c1) as (v1 & v2 & v3 & v4 & v5 & v6 & v7 & v8 & v9 & v10 & v11 & v12 & v13 & v14 & v15 & v16 & v17 & v18 & v19 & _).
    rewrite <- v2 in E. change (state p1) with (state (set_phy_state PErr p1)) in E.
    apply ended_inv in E as [E _]; auto; simpl; rewrite ?v2, ?v4, ?v8; try apply C; [apply cbinv_phy; auto|]. intros X. apply (ci_act _ C); auto.
Qed.

Lemma new_pd_inv k n i p : cp_info_typed i -> new_pd k n i = Some p -> cpi p.
Proof.
  intros Hk H. unfold new_pd in H. cbv zeta in H.
  assert (RB : rx_base pd_zero).
  { split; [apply rb_init_wf|]. split; [constructor|]. split; [reflexivity|apply bytes_zeros]. }
  assert (C0 : Forall cap_typed (caps pd_zero)).
  { change (Forall cap_typed (repeat (mkCap 0 0 0) 17)). repeat (constructor; [split; unfold byte; simpl; lia|]). constructor. }
  assert (G : forall q, pd_mode (fl q) = false -> skip_seq (fl q) = false -> seqn q = -1 -> caps q = caps pd_zero ->
     cmdq q = [] -> sc_wf (sc q) -> pbuf q = zeros 256 -> rb q = rb_init -> eph q = EphNone -> reply_id q = 0 ->
     phy_state q = PIdle -> retry q = 0 -> sc_active (fl q) = false -> state q = SInit -> rq_restart q = false -> cpi q).
  { intros q A1 A2 A3 A4 A5 A6 A7 A8 A9 A10 A11 A12 A13 A14 A15.
    constructor; [constructor|..]; unfold phy_running; rewrite ?A11, ?A12, ?A13, ?A14; auto; try discriminate; try congruence; try lia.
    - unfold rx_base. rewrite A7, A8. exact RB.
    - apply mk_typed; rewrite ?A4, ?A7, ?A9, ?A10; auto; [unfold byte; lia|exact I|apply bytes_zeros].
    - rewrite A5. constructor. }
  unfold cp_info_typed in Hk. destruct (i_scbk i) as [key|].
  - injection H as <-. apply G; try reflexivity. apply zero_sc. exact Hk.
  - destruct (enforce _); [discriminate|]. injection H as <-. apply G; try reflexivity. apply zero_sc. apply blk_zeros16.
Qed.

(* calls other than the refresh leave the transaction alone *)
Lemma cpi_other p q : cpi p -> cbinv q -> phy_state q = phy_state p -> rb q = rb p -> pbuf q = pbuf p -> plen q = plen p ->
  pblen q = pblen p -> seqn q = seqn p -> retry q = retry p -> cmd_id q = cmd_id p -> state q = state p ->
  rq_restart q = rq_restart p -> sc_active (fl q) = sc_active (fl p) -> use_scbkd (fl q) = use_scbkd (fl p) ->
  has_mark (fl q) = has_mark (fl p) -> pd_mode (fl q) = pd_mode (fl p) -> cpi q.
Proof.
  intros [B P X R C A S Q] I h1 h2 h3 h4 h5 h6 h7 h8 h9 h10 h11 h12 h13 h14.
  constructor; auto; unfold phy_running in *; rewrite ?h1, ?h7, ?h9, ?h10, ?h11, ?h12; auto.
  - intros Y. destruct (X Y) as ((W1 & W2) & W3 & W4). split; [split|split].
    + apply I.
    + unfold rx_fill in *. rewrite h4, h5. destruct W2 as [W2|(W2 & W4' & W5)]; [left; auto|right]. split; auto. split; auto.
      rewrite <- W5. unfold check_header_bytes, mark_len. rewrite h3, h13, h14. reflexivity.
    + unfold rx_sync, pending, mark_len in *. rewrite h2, h3, h5, h13. auto.
    + lia.
  - intros Y. specialize (C Y). unfold cmd_of_state in *. rewrite h8, h9. auto.
Qed.

Lemma send_fx e p c q ok o : cp_send_command e p c = (q, ok, o) ->
  (exists cq f, q = set_cmdq cq (set_file f p) /\ (cq = cmdq p \/ cq = cmdq p ++ [c] /\ ok = true)) /\ no_tx o.
Proof.
  intros H. unfold cp_send_command in H.
  assert (SAME : exists cq f, p = set_cmdq cq (set_file f p) /\ (cq = cmdq p \/ cq = cmdq p ++ [c] /\ ok = true)).
  { exists (cmdq p), (file p). split; [destruct p; reflexivity|auto]. }
  destruct (negb (st_eqb (state p) SOnline)); [inv H; split; auto; apply no_tx_nil|]. cbv zeta in H.
  assert (ENQ : (if zlen (cmdq p) <? pool p then (set_cmdq (cmdq p ++ [c]) p, true, []) else (p, false, [])) = (q, ok, o) ->
     (exists cq f, q = set_cmdq cq (set_file f p) /\ (cq = cmdq p \/ cq = cmdq p ++ [c] /\ ok = true)) /\ no_tx o).
  { destruct (_ <? _); intros X; inv X; (split; [|apply no_tx_nil]); [|auto].
    exists (cmdq p ++ [c]), (file p). split; [destruct p; reflexivity|auto]. }
  assert (KEEP : forall f, exists cq f0, set_file f p = set_cmdq cq (set_file f0 p) /\ (cq = cmdq p \/ cq = cmdq p ++ [c] /\ ok = true)).
  { intros f. exists (cmdq p), f. split; [destruct p; reflexivity|auto]. }
  assert (NO : forall a b, no_tx [OFOpen a b]) by (intros a b d [Y|[]]; discriminate).
  destruct c; try (apply ENQ; exact H).
  - destruct (_ || _); [inv H; split; auto; apply no_tx_nil|apply ENQ; exact H].
  - unfold file_tx_command in H. destruct (file p) as [f|] eqn:FP; [|inv H; split; auto; apply no_tx_nil].
    destruct (in_progress f).
    + destruct (Z.testbit _ _); [|inv H; split; auto; apply no_tx_nil].
      destruct (_ =? _); inv H; split; auto; apply no_tx_nil.
    + destruct (Z.testbit _ _); [inv H; split; auto; apply no_tx_nil|].
      destruct (e_fopen e file_id 0) as [rc size].
      destruct (rc <? 0); [inv H; split; auto|]. destruct (size <=? 0); [inv H; split; auto|].
      injection H as <- <- <-. split; auto.
Qed.

Lemma cp_do_inv c p q o : cp_call_typed c -> cpi p -> cp_do c p = Ok (q, o) -> cpi q.
Proof.
  intros T C H. destruct c as [e|e c| |enf inst ign other do_set| |]; cbn [cp_do] in H.
  - destruct (state_update e p) as [[[p1 rc] o1]| |] eqn:U; cbn [bind] in H; try discriminate. simpl in H. inv H.
    eapply upd_inv; eauto. eapply cpi_case; eauto.
  - destruct (cp_send_command e p c) as [[p1 ok] o1] eqn:S. simpl in H. inv H.
    apply send_fx in S as [(cq & f & -> & CQ) _]. destruct T as [_ T].
    assert (I1 : cbinv (set_cmdq cq (set_file f p))).
    { cbgi (ci_b _ C). right. simpl. pose proof (cv_cmdq _ (ci_b _ C)). destruct CQ as [->|[-> _]]; auto.
      apply Forall_app. split; auto. }
    apply (cpi_other p); auto.
  - inv H. apply (cpi_other p); auto. cbgi (ci_b _ C). right. constructor.
  - inv H. unfold cp_modify_flag. destruct other; [exact C|]. cbv zeta. simpl fst.
    assert (G : forall x, pd_mode (fl x) = pd_mode (fl p) /\ skip_seq (fl x) = skip_seq (fl p) /\ sc_active (fl x) = sc_active (fl p) /\
       use_scbkd (fl x) = use_scbkd (fl p) /\ has_mark (fl x) = has_mark (fl p) /\ set_fl (fl p) x = p -> cpi x).
    { intros x (g1 & g2 & g3 & g4 & g5 & g6).
      assert (EX : x = set_fl (fl x) p) by (rewrite <- g6; destruct x; reflexivity). clear g6.
      generalize dependent (fl x). intros y g1 g2 g3 g4 g5 ->. apply (cpi_other p); auto. cbgi (ci_b _ C). }
    destruct enf, inst, ign; apply G; (repeat split); destruct p; reflexivity.
  - inv H. apply (cpi_other p); auto. cbgi (ci_b _ C).
  - inv H. apply (cpi_other p); auto. cbgi (ci_b _ C).
Qed.

Lemma cp_runs_inv k n i h p : cp_runs k n i h p -> cpi p.
Proof. intros R. induction R; eauto using new_pd_inv, cp_do_inv. Qed.

Lemma cp_reach_inv p : cp_reach p -> cpi p.
Proof. intros (k & n & i & h & R). eapply cp_runs_inv; eauto. Qed.
