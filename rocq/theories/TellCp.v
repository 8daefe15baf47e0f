(** CP: the notifications about the PD and its secure channel. *)
From Verif Require Import Base ListLemmas Crc SpecCrc CrcProofs CrcBurst Aes AesProofs Rb RbProofs
  Types Sc ScProofs Phy PhyCheck File Pd Cp SpecRx SpecFrame SpecSec SpecSession RxProofs RxFwd PdRx PdCore PhyTx PdTx PdReply
  PdStep PdRun PdWire PdFwd PdSec PdHist2 WireSec CpCtx SpecPd SpecCp SpecCpRun CpTx CpRx CpStep CpInv CpEdge CpFacts CpSum CpWire CpHist CpTime CpFwd CpRetry CpSeq CpQueue CpReply MacProofs SpecOnce SpecTell.
From Coq Require Import ZifyBool ZifyNat.
Ltac Zify.zify_post_hook ::= Z.div_mod_to_equations.
Local Opaque aes_ecb_encrypt aes_cbc_encrypt aes_cbc_decrypt mac_of RB_SIZE osdp_mac enc1 cap_entries osdp_encrypt encrypt_data.

(* nothing is told about states *)
Definition mute (o : list out) : Prop := sc_told o = [] /\ pd_told o = [].
Lemma sc_told_app a b : sc_told (a ++ b) = sc_told a ++ sc_told b.
Proof. apply flat_map_app. Qed.
Lemma pd_told_app a b : pd_told (a ++ b) = pd_told a ++ pd_told b.
Proof. apply flat_map_app. Qed.
Lemma mute_app a b : mute a -> mute b -> mute (a ++ b).
Proof. intros [A1 A2] [B1 B2]. split; [rewrite sc_told_app, A1, B1|rewrite pd_told_app, A2, B2]; reflexivity. Qed.
Lemma mute_nil : mute [].
Proof. split; reflexivity. Qed.
Ltac mut := first [apply mute_nil | split; reflexivity | apply mute_app; mut].

Lemma file_get_mute e p q c o : file_tx_get_command e p = (q, c, o) -> mute o.
Proof.
  intros H. unfold file_tx_get_command in H. destruct (file p) as [f|] eqn:FP; [|inv H; mut].
  destruct (f_state f); try (inv H; mut; fail); (destruct (_ || _); [unfold file_tx_abort in H; rewrite FP in H; destruct (in_progress f); inv H; mut|]);
  (destruct (_ && _); [inv H; mut|]); destruct (Z.testbit _ _); inv H; mut.
Qed.

Lemma get_cmd_mute e p q c o : state_get_cmd e p = Ok (q, c, o) -> mute o.
Proof.
  unfold state_get_cmd. destruct (state p); try (intros H; inv H; mut; fail). unfold get_online_command.
  destruct (cmdq p). 2: { destruct (translate_cmd _ _); simpl; intros H; inv H; mut. }
  destruct (file_tx_get_command e p) as [[p1 c1] o1] eqn:F. pose proof (file_get_mute _ _ _ _ _ F).
  destruct (negb _); [intros X; inv X; auto|]. destruct (_ >? _); intros X; inv X; auto.
Qed.

Lemma build_mute e p b m p2 l s o : build_cmd_switch e p b m = Ok (p2, l, s, o) -> mute o.
Proof.
  unfold build_cmd_switch. cbv zeta.
  repeat match goal with |- context [if ?c then _ else _] => destruct c eqn:?; try discriminate end;
  unfold assert_len; repeat match goal with |- context [if ?c then _ else _] => destruct c eqn:?; try discriminate end;
  try (intros H; inv H; mut; fail).
  - unfold file_tx_build. destruct (file p) as [f|]; try discriminate.
    destruct (f_state f); try discriminate; (destruct (_ <=? _); [intros H; inv H; mut|]); try (intros H; inv H; mut; fail).
    destruct (e_fread _ _ _) as [d|]; [|intros H; inv H; mut]. destruct (_ >? _); [discriminate|]. destruct (_ =? 0); intros H; inv H; mut.
  - destruct (build_app_cmd p m); simpl; intros H; inv H; mut.
Qed.

Lemma sent_mute e p p1 ok o : cmd_sent e p p1 ok o -> mute o.
Proof.
  intros [(_ & _ & _ & ->)|(_ & p2 & pay & ss & ob & BS & _ & _ & _ & _ & _ & H)]; [mut|]. pose proof (build_mute _ _ _ _ _ _ _ _ BS) as S.
  destruct H as [(_ & _ & _ & ->)|(d & _ & _ & _ & _ & _ & _ & _ & _ & [(_ & _ & -> & _)|(_ & (ot & -> & SN) & _)])]; auto.
  apply mute_app; auto. destruct SN as [(-> & _)|[(k & X)|(-> & _)]]; [mut| |mut].
  destruct X as (_ & -> & _). mut.
Qed.

Lemma file_stat_mute e p d q b o : file_stat_decode e p d = Ok (q, b, o) -> mute o.
Proof.
  unfold file_stat_decode. destruct (file p) as [f|]; [|intros H; inv H; mut].
  dif; [intros H; inv H; mut|]. dif; [intros H; inv H; mut|]. dif; [discriminate|]. dif; [discriminate|]. cbv zeta.
  dif; [intros H; inv H; mut|].
  assert (N : forall b : bool, mute (if b then [OFClose] else [])) by (intros [|]; mut).
  dif; [intros H; inv H; auto|]. dif; [intros H; inv H; auto|]. dif; intros H; inv H; auto.
Qed.

Lemma resp_mute e p l q r o : decode_response e p l = Ok (q, r, o) -> 1 <= zlen l -> mute o.
Proof.
  intros D L. destruct (decode_response_rel _ _ _ _ _ _ D L) as [_ _ _ _ _ _ _ a8 _ _].
  destruct (Z.eq_dec (getb l 0) 122) as [E|NE]; [|destruct (a8 NE) as (_ & _ & ->); mut].
  unfold decode_response in D. cbv zeta in D. rewrite E in D. codes D.
  destruct (file_stat_decode _ _ _) as [[[p1 b] o1]| |] eqn:F; simpl in D; try discriminate. pose proof (file_stat_mute _ _ _ _ _ _ F).
  destruct b; inv D; auto.
Qed.

Lemma reply_mute e p p1 r o : cpi p -> phy_state p = PReplyWait -> reply_case e p p1 r o -> mute o.
Proof.
  intros I P H. destruct H as [k N K S|k N K C|pf r o G S F]; try (mut; fail).
  destruct F as [B E|A B C E|A B C D E|k A B C D H1|p2 l r o A B C D H1 H2]; try (mut; fail).
  assert (I1 : cbinv pf) by (pose proof G as (R & W1 & _); eapply cbinv_rx; eauto; [apply (ci_b p I)|apply W1]).
  destruct (got_full _ _ _ G) as (FU & _).
  destruct (cp_decode_packet _ _ _ I1 ltac:(destruct FU as (x & y & _); lia) H1) as (_ & _ & _ & _ & _ & BL & NE & L & _).
  assert (L1 : 1 <= zlen l) by (destruct l; [congruence|]; rewrite zlen_cons; pose proof (zlen_nonneg l); lia).
  eapply resp_mute; eauto.
Qed.

Lemma status_mute e p st : mute (notify_command_status e p st).
Proof. unfold notify_command_status, notify. destruct (app_cmd_of p); [destruct (_ && _)|]; mut. Qed.

Lemma last_of_app {A} (a b : list A) d : last (a ++ b) d = last b (last a d).
Proof.
  destruct b as [|y b]; [rewrite app_nil_r; reflexivity|]. rewrite (last_default (y :: b) d (last a d)) by discriminate.
  induction a as [|x a IH]; [apply last_default; discriminate|]. cbn [app]. rewrite <- IH. destruct (a ++ y :: b) eqn:E; [destruct a; discriminate|reflexivity].
Qed.

(* the stretch of outputs t brings the application from the truth about p to the truth about q *)
Definition truthful (p q : pd) (t : list out) : Prop := believes (b2z (sc_active (fl p))) (sc_told t) = b2z (sc_active (fl q)).
Lemma truthful_app p1 p2 p3 a b : truthful p1 p2 a -> truthful p2 p3 b -> truthful p1 p3 (a ++ b).
Proof. unfold truthful, believes. rewrite sc_told_app, last_of_app. intros -> B. exact B. Qed.
Lemma truthful_mute p q o : mute o -> sc_active (fl q) = sc_active (fl p) -> truthful p q o.
Proof. unfold truthful. intros [-> _] ->. reflexivity. Qed.
Lemma truthful_any p p' q o : truthful p q o -> sc_told o <> [] -> truthful p' q o.
Proof. unfold truthful, believes. intros H N. rewrite <- H. apply last_default. exact N. Qed.

Lemma change_told e p n q o : e_evcb e = true -> notif (fl p) = true -> state_change e p n = (q, o) ->
  truthful p q o /\ pd_told o = match n with SOnline | SOffline => [1] | _ => [] end /\ state q = n /\ (n = SOffline -> sc_told o <> []).
Proof.
  intros E N H. unfold state_change, notify_sc_status, notify_pd_status, notify in H. cbv zeta in H. simpl in H. rewrite E, N in H. simpl in H.
  destruct n; inv H; (split; [|split; [reflexivity|split; [try reflexivity|discriminate]]]); try reflexivity.
  - unfold truthful. simpl. destruct (sc_setup_fields (e_rand e) p) as (s & ->). reflexivity.
Qed.

Lemma requests_told e p n q n2 o : no_notif p -> do_requests e p n = (q, n2, o) -> mute o /\ sc_active (fl q) = sc_active (fl p) /\ notif (fl q) = notif (fl p) /\
  (n2 = n \/ n2 = SOffline \/ rq_restart p = true) /\ state q = state p.
Proof.
  intros NN H. split.
  - destruct (requests_out _ _ _ _ _ _ H) as [-> |(_ & p' & -> & E & _)]; [mut|]. unfold do_event_callback. destruct (e_evcb e); [|mut].
    destruct (eph p') eqn:X; try mut. destruct e0; try mut. symmetry in E. specialize (NN _ E). discriminate.
  - unfold do_requests in H. destruct (_ || _); [|inv H; auto 7].
    destruct (rq_restart p) eqn:RR; simpl in H; (destruct (rq_offline p); simpl in H); destruct (rq_event p) eqn:RE; simpl in H; inv H; auto 9.
Qed.

Lemma keyset_told e p q o : e_evcb e = true -> notif (fl p) = true -> keyset_complete e p = Ok (q, o) ->
  truthful p q o /\ pd_told o = [] /\ notif (fl q) = true /\ sc_told o <> [] /\ state q = state p.
Proof.
  intros E N H. unfold keyset_complete in H.
  assert (G : forall p1, notif (fl p1) = true -> forall q o, Ok (match state (sc_deactivate p1) with SOnline => set_rq_restart true (sc_deactivate p1) | _ => sc_deactivate p1 end, notify_sc_status e (sc_deactivate p1)) = Ok (q, o) ->
     truthful p q o /\ pd_told o = [] /\ notif (fl q) = true /\ sc_told o <> [] /\ state q = state p1).
  { intros p1 N1 q0 o0 X. unfold notify_sc_status, notify in X. simpl in X. rewrite E, N1 in X. simpl in X.
    destruct (state p1) eqn:ST; inv X; (split; [reflexivity|]); (split; [reflexivity|]); (split; [exact N1|]); split; auto; discriminate. }
  destruct (negb _).
  - destruct (eph p); try discriminate. destruct c; try discriminate. destruct (take_arr _ _) as [d0| |]; try discriminate. cbn [bind] in H. cbv zeta in H. exact (G (set_scbk d0 p) N _ _ H).
  - cbn [bind] in H. cbv zeta in H. exact (G (set_use_scbkd false p) N _ _ H).
Qed.

Lemma next_told e p ok p1 n1 o1 : e_evcb e = true -> notif (fl p) = true -> (if ok : bool then next_ok_state e p else Ok (next_err_state e p)) = Ok (p1, n1, o1) ->
  truthful p p1 o1 /\ pd_told o1 = [] /\ notif (fl p1) = true /\ (ok = false -> state p = SSetScbk -> sc_told o1 <> []) /\ (ok = false -> state p = SOnline -> n1 = SOffline /\ rq_restart p1 = rq_restart p) /\ state p1 = state p.
Proof.
  intros E N H. destruct ok.
  - unfold next_ok_state in H. destruct (state p) eqn:S.
    + inv H. repeat split; auto; try discriminate; try congruence.
    + destruct (sc_is_capable p); [|destruct (enforce (fl p))]; inv H; repeat split; auto; try discriminate; try congruence.
    + inv H. repeat split; auto; try discriminate; try congruence.
    + cbv zeta in H. unfold notify_sc_status, notify in H. simpl in H. rewrite E, N in H. destruct (use_scbkd _); inv H; repeat split; auto; try discriminate; try congruence.
    + destruct (keyset_complete e p) as [[p2 o2]| |] eqn:K; simpl in H; try discriminate. inv H.
      destruct (keyset_told _ _ _ _ E N K) as (A & B & C & D & F). repeat split; auto; try discriminate; try congruence.
    + inv H. repeat split; auto; try discriminate; try congruence.
    + inv H. repeat split; auto; try discriminate; try congruence.
  - unfold next_err_state in H. destruct (state p) eqn:S.
    + inv H. repeat split; auto; try discriminate; try congruence.
    + inv H. repeat split; auto; try discriminate; try congruence.
    + destruct (enforce (fl p)); [|destruct (negb (use_scbkd (fl p)))]; inv H; repeat split; auto; try discriminate; try congruence.
    + inv H. repeat split; auto; try discriminate; try congruence.
    + cbv zeta in H. unfold notify_sc_status, notify in H. simpl in H. rewrite E, N in H. inv H. repeat split; auto; try discriminate; try congruence.
    + inv H. repeat split; auto; try discriminate; try congruence.
    + inv H. repeat split; auto; try discriminate; try congruence.
Qed.

Lemma finish_told e p ok o0 q rc o : e_evcb e = true -> notif (fl p) = true -> no_notif p -> finish_update e (state p) p ok o0 = Ok (q, rc, o) ->
  exists t, o = o0 ++ t /\ truthful p q t /\ pd_told t = (if came_or_went p q then [1] else []) /\
    (ok = false -> rq_restart p = false -> state p = SOnline \/ state p = SSetScbk -> sc_told t <> []).
Proof.
  intros E N NN H. unfold finish_update in H.
  destruct (if ok then _ else _) as [[[p1 n1] o1]| |] eqn:NX; cbn [bind] in H; try discriminate.
  destruct (next_silent e p ok p1 n1 o1 NX) as (_ & EE & _ & _ & _).
  destruct (next_told e p ok p1 n1 o1 E N NX) as (T1 & P1 & N1 & S1 & ON & ST1).
  destruct (do_requests e p1 n1) as [[p2 n2] o2] eqn:DR.
  assert (NN1 : no_notif p1) by (intros ev X; apply NN, EE, X).
  destruct (requests_told _ _ _ _ _ _ NN1 DR) as (M2 & A2 & N2 & Q2 & ST2).
  assert (T2 : truthful p p2 (o1 ++ o2)) by (eapply truthful_app; [exact T1|apply truthful_mute; auto]).
  assert (PT : pd_told (o1 ++ o2) = []) by (rewrite pd_told_app, P1; apply M2).
  assert (SS : ok = false -> state p = SSetScbk -> sc_told (o1 ++ o2) <> []).
  { intros X Y. rewrite sc_told_app. specialize (S1 X Y). destruct (sc_told o1); [congruence|discriminate]. }
  assert (OF : ok = false -> rq_restart p = false -> state p = SOnline -> n2 = SOffline).
  { intros X R Y. destruct (ON X Y) as (A & B). destruct Q2 as [Q2|[Q2|Q2]]; congruence. }
  destruct (st_eqb (state p) n2) eqn:Q.
  - injection H as <- <- <-. exists (o1 ++ o2). split; auto. split; auto. split.
    + rewrite PT. unfold came_or_went. rewrite ST2, ST1. destruct (state p); reflexivity.
    + intros X R [Y|Y]; [|auto]. rewrite (OF X R Y), Y in Q. discriminate.
  - destruct (state_change e p2 n2) as [p3 o3] eqn:CH. injection H as <- <- <-. exists ((o1 ++ o2) ++ o3). split; [rewrite <- !app_assoc; reflexivity|].
    rewrite <- N2 in N1. destruct (change_told e p2 n2 p3 o3 E N1 CH) as (T3 & P3 & S3 & O3).
    split; [eapply truthful_app; eauto|]. split.
    + rewrite pd_told_app, PT, P3. unfold came_or_went. rewrite S3. destruct (state p), n2; try reflexivity; discriminate.
    + intros X R [Y|Y]; [|rewrite sc_told_app; specialize (SS X Y); destruct (sc_told (o1 ++ o2)); [congruence|discriminate]].
      rewrite sc_told_app. specialize (O3 (OF X R Y)). intros Z. apply app_eq_nil in Z as [_ Z]. auto.
Qed.

Lemma check_told e p q st o : e_evcb e = true -> notif (fl p) = true -> state_check_reply e p = Ok (q, st, o) ->
  truthful p q o /\ pd_told o = [] /\ notif (fl q) = true /\ state q = state p /\ (q = p \/ sc_told o <> []).
Proof.
  intros E N H. assert (G : forall b, Ok (p, b, []) = Ok (q, st, o) -> truthful p q o /\ pd_told o = [] /\ notif (fl q) = true /\ state q = state p /\ (q = p \/ sc_told o <> [])).
  { intros b X. injection X as <- _ <-. repeat split; auto. }
  assert (S : exists x, state p = x) by eauto. destruct S as [x S]. unfold state_check_reply in H. rewrite S in H. destruct x; try exact (G _ H). unfold check_online_response in H. cbv zeta in H.
  destruct (reply_id p =? REPLY_ACK); [destruct (cmd_id p =? CMD_KEYSET); [|exact (G _ H)]|].
  - destruct (keyset_complete e p) as [[p2 o2]| |] eqn:K; simpl in H; try discriminate. injection H as <- _ <-.
    destruct (keyset_told _ _ _ _ E N K) as (A & B & C & D & F). split; [exact A|]. split; [exact B|]. split; [exact C|]. split; [congruence|right; exact D].
  - destruct (_ || _); [exact (G _ H)|]. destruct (_ =? _); exact (G _ H).
Qed.

Lemma went_state_eq p p1 q : state p1 = state p -> came_or_went p1 q = came_or_went p q.
Proof. intros H. unfold came_or_went. rewrite H. reflexivity. Qed.

Lemma ended_told e ok p1 o1 q o : e_evcb e = true -> notif (fl p1) = true -> no_notif p1 -> mute o1 -> ended e (state p1) ok p1 o1 q o ->
  truthful p1 q o /\ pd_told o = (if came_or_went p1 q then [1] else []) /\
  (ok = false -> rq_restart p1 = false -> state p1 = SOnline \/ state p1 = SSetScbk -> sc_told o <> []).
Proof.
  intros E N NN M (p2 & st & o2 & CK & FU). destruct (check_checked _ _ _ _ _ CK) as (CH & _).
  destruct (check_told _ _ _ _ _ E N CK) as (T2 & P2 & N2 & S2 & Q2).
  assert (NN2 : no_notif (state_reset false p2)) by (intros ev; destruct (check_eph _ _ _ CH) as (-> & _); apply NN).
  rewrite <- S2 in FU. change (state p2) with (state (state_reset false p2)) in FU.
  destruct (finish_told e (state_reset false p2) (ok && st) _ q _ o E N2 NN2 FU) as (t & -> & T3 & P3 & S3).
  destruct (status_mute e p2 st) as (M1 & M2). destruct M as (M3 & M4).
  split; [|split].
  - rewrite <- !app_assoc. eapply truthful_app; [apply (truthful_mute p1 p1 o1); [split; auto|auto]|]. eapply truthful_app; [exact T2|].
    eapply truthful_app; [apply (truthful_mute p2 p2); [split; auto|auto]|]. exact T3.
  - rewrite !pd_told_app, M2, M4, P2, P3, (went_state_eq p1 (state_reset false p2) q S2). reflexivity.
  - intros -> R S. rewrite !sc_told_app, M1, M3. simpl. rewrite app_nil_r. destruct Q2 as [-> |Q2]; [|intros X; apply app_eq_nil in X as [X _]; auto].
    intros X. apply app_eq_nil in X as [_ X]. revert X. apply S3; auto.
Qed.

Lemma upd_told e p q rc o : cpi p -> no_notif p -> env_typed e -> e_evcb e = true -> notif (fl p) = true ->
  state_update e p = Ok (q, rc, o) -> truthful p q o /\ pd_told o = (if came_or_went p q then [1] else []).
Proof.
  intros I NN ET EC NT U. pose proof (cpi_case e p q rc o I ET U) as C.
  assert (STAY : sc_active (fl q) = sc_active (fl p) -> state q = state p -> mute o -> truthful p q o /\ pd_told o = (if came_or_went p q then [1] else [])).
  { intros A B M. split; [apply truthful_mute; auto|]. unfold came_or_went. rewrite B. destruct M as [_ ->]. destruct (state p); reflexivity. }
  assert (RF : forall p1 r o1, phy_state p = PReplyWait -> reply_case e p p1 r o1 -> reply_fx e p p1 r o1).
  { intros p1 r o1 P R. destruct (ci_rx p I P) as (W & _ & S0). apply reply_case_fx; auto; apply I. }
  assert (RC : forall p1 r o1, phy_state p = PReplyWait -> reply_case e p p1 r o1 -> mute o1 /\ no_notif p1 /\ state p1 = state p /\ notif (fl p1) = true /\ rq_restart p1 = false).
  { intros p1 r o1 P R. split; [eapply reply_mute; eauto|]. split; [apply (src_no_notif e p p1); auto; eapply reply_src; eauto|].
    pose proof (reply_pre _ _ _ _ _ I P R) as PX. split; [exact (px_state _ _ PX)|].
    split; [rewrite <- NT; exact (f_equal (fun x => notif (fl x)) (rx_core _ _ _ _ _ (RF _ _ _ P R)))|]. exact (px_rq _ _ PX). }
  (* an exchange ends well, or with the flag of the session as it was *)
  assert (EN : forall ok p1 o1, mute o1 -> no_notif p1 -> notif (fl p1) = true -> state p1 = state p ->
      (sc_active (fl p1) = sc_active (fl p) \/ ok = false /\ rq_restart p1 = false /\ sc_active (fl p) = true) ->
      ended e (state p) ok p1 o1 q o -> truthful p q o /\ pd_told o = (if came_or_went p q then [1] else [])).
  { intros ok p1 o1 M N1 T1 S1 A E. rewrite <- S1 in E. destruct (ended_told _ _ _ _ _ _ EC T1 N1 M E) as (X1 & X2 & X3).
    rewrite (went_state_eq p p1 q S1) in X2. split; auto. destruct A as [A|(-> & R & A)].
    - unfold truthful in *. rewrite <- A. exact X1.
    - apply (truthful_any p1); auto. apply X3; auto. rewrite S1. apply (ci_act p I A). }
  destruct C as [P1 T1 E | p1 c o P1 G1 C0 E | p1 c o1 o P1 G1 C0 F | p1 o SE CS E | p1 o1 o SE CS E | P1 R1 T1 | p1 P1 R1 T1 L E | p1 o P1 R1 T1 L E
       | p1 o P1 R1 E | p1 r o1 o P1 R1 K E | p1 r o1 o P1 R1 K E ].
  - subst q. apply STAY; auto. mut.
  - destruct (get_cmd_fx e p p1 c o G1 (ci_b p I)) as [g1 g2 g3 g4 g5 g6 g7 g8 g9 g10]. apply STAY; [subst q; simpl; congruence|subst q; simpl; congruence|eapply get_cmd_mute; eauto].
  - destruct (get_cmd_fx e p p1 c o1 G1 (ci_b p I)) as [g1 g2 g3 g4 g5 g6 g7 g8 g9 g10]. destruct (pick_src _ _ _ _ _ (get_cmd_picked _ _ _ _ _ G1)) as (SR & _).
    rewrite <- g4 in F. change (state p1) with (state (set_cmd_id c p1)) in F.
    assert (N1 : notif (fl (set_cmd_id c p1)) = true) by (simpl; rewrite g6; exact NT).
    destruct (finish_told e (set_cmd_id c p1) true o1 q _ o EC N1 (src_no_notif e p p1 SR NN) F) as (t & -> & T2 & P2 & _).
    pose proof (get_cmd_mute _ _ _ _ _ G1) as M. split.
    + apply (truthful_app p (set_cmd_id c p1)); auto. apply truthful_mute; auto. simpl. rewrite g6. reflexivity.
    + rewrite pd_told_app, P2. destruct M as [_ ->]. rewrite (went_state_eq p (set_cmd_id c p1) q g4). reflexivity.
  - assert (CB : cbinv (set_phy_state PSend p)) by (apply cbinv_phy; apply I). pose proof (sx_core _ _ _ _ _ (cmd_sent_fx e _ _ _ _ CB CS)) as x1.
    apply STAY; [subst q; exact (f_equal (fun x => sc_active (fl x)) x1)|subst q; exact (f_equal (fun x => state x) x1)|eapply sent_mute; eauto].
  - assert (CB : cbinv (set_phy_state PSend p)) by (apply cbinv_phy; apply I). pose proof (sx_core _ _ _ _ _ (cmd_sent_fx e _ _ _ _ CB CS)) as x1.
    apply (EN false (set_phy_state PErr p1) o1); auto; simpl.
    + eapply sent_mute; eauto.
    + intros ev. assert (EE : eph p1 = eph p) by exact (f_equal (fun x => eph x) x1). simpl. rewrite EE. apply NN.
    + rewrite <- NT. exact (f_equal (fun x => notif (fl x)) x1).
    + exact (f_equal (fun x => state x) x1).
    + left. exact (f_equal (fun x => sc_active (fl x)) x1).
  - destruct (RC _ _ _ P1 R1) as (A & B & ST & N1 & RR). apply STAY; auto. apply (rx_act1 _ _ _ _ _ (RF _ _ _ P1 R1)). discriminate.
  - destruct (RC _ _ _ P1 R1) as (A & B & ST & N1 & RR). subst q. apply STAY; auto. apply (rx_act1 _ _ _ _ _ (RF _ _ _ P1 R1)). discriminate.
  - destruct (RC _ _ _ P1 R1) as (A & B & ST & N1 & RR). apply (EN false (set_phy_state PErr p1) []); auto. left. apply (rx_act1 _ _ _ _ _ (RF _ _ _ P1 R1)). discriminate.
  - destruct (RC _ _ _ P1 R1) as (A & B & ST & N1 & RR). subst q. apply STAY; auto. apply (rx_act1 _ _ _ _ _ (RF _ _ _ P1 R1)). discriminate.
  - destruct (RC _ _ _ P1 R1) as (A & B & ST & N1 & RR). destruct (stamped_fx e r p1) as (a & b & SF). rewrite SF in E.
    apply (EN true (set_phy_state PDone (set_tstamp a (set_sc_tstamp b p1))) o1); auto. left. apply (rx_act1 _ _ _ _ _ (RF _ _ _ P1 R1)).
    destruct K as [-> |(-> & _)]; discriminate.
  - destruct (RC _ _ _ P1 R1) as (A & B & ST & N1 & RR). apply (EN false (set_phy_state PErr p1) o1); auto.
    destruct (sc_active (fl p)) eqn:SA; [right; auto|left]. simpl. destruct (sc_active (fl p1)) eqn:S1; auto.
    pose proof (rx_act _ _ _ _ _ (RF _ _ _ P1 R1) S1). congruence.
Qed.

Lemma other_told c p q o : is_update c = false -> cp_do c p = Ok (q, o) -> mute o.
Proof.
  intros U D. destruct c as [e|e c| |enf inst ign other ds| |]; try discriminate; simpl in D; injection D as _ <-; try mut.
  unfold cp_send_command. destruct (negb _); [mut|]. cbv zeta.
  assert (Q : forall x y : pd, mute (snd (if zlen (cmdq p) <? pool p then (x, true, @nil out) else (y, false, [])))) by (intros x y; destruct (_ <? _); mut).
  destruct c; try apply Q.
  - destruct (_ || _); [mut|apply Q].
  - unfold file_tx_command. repeat match goal with |- context [match ?v with _ => _ end] => destruct v; try mut end.
Qed.

(* the latest notification about the secure channel is true *)
Lemma believed_runs k n i h p : cp_runs k n i h p -> Forall listens h ->
  believes 0 (in_time (fun en => sc_told (ce_out en)) h) = b2z (sc_active (fl p)).
Proof.
  induction 1 as [p T N|h p c q o R IH CT D]; intros L.
  - unfold new_pd in N; destruct (i_scbk i); [|destruct (enforce _); [discriminate|]]; injection N as <-; reflexivity.
  - inversion L as [|en t L1 L2]; subst. specialize (IH L2). cbn [in_time ce_out]. unfold believes in *. rewrite last_of_app, IH.
    destruct (is_update c) eqn:UC.
    + destruct c as [e| | | | |]; try discriminate. destruct L1 as [L1 L1']. destruct (cp_do_update e p q o D) as (rc & U).
      exact (proj1 (upd_told e p q rc o (cp_runs_inv _ _ _ _ _ R) (runs_no_notif _ _ _ _ _ R) CT L1 L1' U)).
    + destruct (other_eq c p q o UC D) as [E _].
      destruct (ucore_fields _ _ E) as (u1 & u2 & u3 & u4 & u5 & u6 & u7 & u8 & u9 & _).
      destruct (other_told c p q o UC D) as [-> _]. rewrite u9. reflexivity.
Qed.
