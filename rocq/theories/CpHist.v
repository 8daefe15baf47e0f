(** CP: moves, enforcement, key proof and waiting times over whole runs of a PD entry. *)
From Verif Require Import Base ListLemmas Crc SpecCrc CrcProofs CrcBurst Aes AesProofs Rb RbProofs
  Types Sc ScProofs Phy PhyCheck File Pd Cp SpecRx SpecFrame SpecSec SpecSession RxProofs PdRx PdCore PhyTx PdTx PdReply
  PdStep PdRun PdWire PdFwd PdSec PdHist2 WireSec CpCtx SpecPd SpecCp SpecCpRun CpTx CpRx CpStep CpInv CpEdge CpFacts CpSum CpWire.
From Coq Require Import ZifyBool ZifyNat.
Ltac Zify.zify_post_hook ::= Z.div_mod_to_equations.
Local Opaque aes_ecb_encrypt aes_cbc_encrypt aes_cbc_decrypt mac_of RB_SIZE osdp_mac enc1 cap_entries osdp_encrypt encrypt_data.

(** * Calls other than the refresh *)

(* fields that only the application changes between refreshes *)
Definition ucore (p : pd) : pd :=
  set_cmdq [] (set_file None (set_chn_shared false (set_enforce false (set_install false (set_ign_unsol false p))))).

Lemma ucore_fields p q : ucore q = ucore p ->
  state q = state p /\ phy_state q = phy_state p /\ seqn q = seqn p /\ retry q = retry p /\ wait_ms q = wait_ms p /\
  tstamp q = tstamp p /\ phy_tstamp q = phy_tstamp p /\ sc q = sc p /\ sc_active (fl q) = sc_active (fl p) /\
  use_scbkd (fl q) = use_scbkd (fl p) /\ cmd_id q = cmd_id p /\ reply_id q = reply_id p /\ eph q = eph p /\
  rq_event q = rq_event p /\ rq_offline q = rq_offline p /\ address q = address p /\ idx q = idx p /\ chan_id q = chan_id p /\
  pbuf q = pbuf p /\ plen q = plen p /\ pblen q = pblen p /\ rb q = rb p /\ sc_tstamp q = sc_tstamp p /\
  has_scbk (fl q) = has_scbk (fl p) /\ sc_disabled (fl q) = sc_disabled (fl p) /\ notif (fl q) = notif (fl p) /\
  has_mark (fl q) = has_mark (fl p) /\ sc_capable (fl q) = sc_capable (fl p) /\ peer_rx q = peer_rx p.
Proof.
  intros R.
  split; [exact (f_equal (fun x => state x) R)|]. split; [exact (f_equal (fun x => phy_state x) R)|].
  split; [exact (f_equal (fun x => seqn x) R)|]. split; [exact (f_equal (fun x => retry x) R)|].
  split; [exact (f_equal (fun x => wait_ms x) R)|]. split; [exact (f_equal (fun x => tstamp x) R)|].
  split; [exact (f_equal (fun x => phy_tstamp x) R)|]. split; [exact (f_equal (fun x => sc x) R)|].
  split; [exact (f_equal (fun x => sc_active (fl x)) R)|]. split; [exact (f_equal (fun x => use_scbkd (fl x)) R)|].
  split; [exact (f_equal (fun x => cmd_id x) R)|]. split; [exact (f_equal (fun x => reply_id x) R)|].
  split; [exact (f_equal (fun x => eph x) R)|]. split; [exact (f_equal (fun x => rq_event x) R)|].
  split; [exact (f_equal (fun x => rq_offline x) R)|]. split; [exact (f_equal (fun x => address x) R)|].
  split; [exact (f_equal (fun x => idx x) R)|]. split; [exact (f_equal (fun x => chan_id x) R)|].
  split; [exact (f_equal (fun x => pbuf x) R)|]. split; [exact (f_equal (fun x => plen x) R)|].
  split; [exact (f_equal (fun x => pblen x) R)|]. split; [exact (f_equal (fun x => rb x) R)|].
  split; [exact (f_equal (fun x => sc_tstamp x) R)|].
  split; [exact (f_equal (fun x => has_scbk (fl x)) R)|]. split; [exact (f_equal (fun x => sc_disabled (fl x)) R)|].
  split; [exact (f_equal (fun x => notif (fl x)) R)|]. split; [exact (f_equal (fun x => has_mark (fl x)) R)|].
  split; [exact (f_equal (fun x => sc_capable (fl x)) R)|]. exact (f_equal (fun x => peer_rx x) R).
Qed.

Definition is_update (c : cp_call) : bool := match c with Update _ => true | _ => false end.

Lemma other_eq c p q o : is_update c = false -> cp_do c p = Ok (q, o) -> ucore q = ucore p /\ no_tx o.
Proof.
  destruct c as [e|e c| |enf inst ign other ds| |]; simpl; intros U H; try discriminate.
  - destruct (cp_send_command e p c) as [[p1 ok] o1] eqn:S. simpl in H. injection H as <- <-.
    destruct (send_fx e p c p1 ok o1 S) as [(cq & f & -> & _) N]. split; [reflexivity|auto].
  - injection H as <- <-. split; [reflexivity|intros ? []].
  - injection H as <- <-. split; [|intros ? []]. unfold cp_modify_flag. destruct other; [reflexivity|].
    destruct enf, inst, ign; reflexivity.
  - injection H as <- <-. split; [reflexivity|intros ? []].
  - injection H as <- <-. split; [reflexivity|intros ? []].
Qed.
Global Opaque ucore.

Lemma cp_do_update e p q o : cp_do (Update e) p = Ok (q, o) -> exists rc, state_update e p = Ok (q, rc, o).
Proof.
  simpl. destruct (state_update e p) as [[[a b] c]| |]; simpl; try discriminate. intros H. injection H as <- <-. eauto.
Qed.

(* invariants by induction over the calls *)
Lemma seg_inv p l q : cp_seg p l q -> cpi p -> cpi q.
Proof. induction 1; auto. intros I. apply IHcp_seg. eapply cp_do_inv; eauto. Qed.

Lemma runs_seg k n i h p l q : cp_runs k n i h p -> cp_seg p l q -> cp_runs k n i (rev l ++ h) q.
Proof.
  intros R S. revert h R. induction S as [|p c q o l r T D S IH]; intros h R; auto.
  simpl. rewrite <- app_assoc. apply IH. econstructor; eauto.
Qed.

Lemma seg_app p l1 l2 r : cp_seg p (l1 ++ l2) r <-> exists q, cp_seg p l1 q /\ cp_seg q l2 r.
Proof.
  revert p. induction l1 as [|a l1 IH]; intros p; simpl; split.
  - intros H. exists p. split; auto. constructor.
  - intros (q & H1 & H2). inversion H1; subst. auto.
  - intros H. inversion H as [|p0 c q o l r0 T D S E1 E2]; subst. apply IH in S. destruct S as (x & X1 & X2). exists x. split; auto. econstructor; eauto.
  - intros (q & H1 & H2). inversion H1; subst. econstructor; eauto. apply IH. eauto.
Qed.

(** * C34: moves *)

Lemma core_l p q : lcore q = lcore p -> enforce (fl q) = enforce (fl p) /\ install (fl q) = install (fl p) /\
   sc_disabled (fl q) = sc_disabled (fl p) /\ has_scbk (fl q) = has_scbk (fl p) /\ sc_capable (fl q) = sc_capable (fl p) /\ idx q = idx p /\ chan_id q = chan_id p /\
   cmdq q = cmdq p /\ reply_id q = reply_id p /\ cmd_id q = cmd_id p /\ address q = address p /\ phy_tstamp q = phy_tstamp p.
Proof.
  intros R. split; [exact (f_equal (fun x => enforce (fl x)) R)|]. split; [exact (f_equal (fun x => install (fl x)) R)|].
  split; [exact (f_equal (fun x => sc_disabled (fl x)) R)|]. split; [exact (f_equal (fun x => has_scbk (fl x)) R)|].
  split; [exact (f_equal (fun x => sc_capable (fl x)) R)|]. split; [exact (f_equal (fun x => idx x) R)|].
  split; [exact (f_equal (fun x => chan_id x) R)|]. split; [exact (f_equal (fun x => cmdq x) R)|].
  split; [exact (f_equal (fun x => reply_id x) R)|]. split; [exact (f_equal (fun x => cmd_id x) R)|].
  split; [exact (f_equal (fun x => address x) R)|]. exact (f_equal (fun x => phy_tstamp x) R).
Qed.

(* what the judgement of the reply leaves alone *)
Lemma checked_same p1 p3 st : checked p1 p3 st -> state p3 = state p1 /\ enforce (fl p3) = enforce (fl p1) /\ install (fl p3) = install (fl p1) /\
  (use_scbkd (fl p3) = true -> use_scbkd (fl p1) = true) /\ (sc_active (fl p3) = true -> sc_active (fl p1) = true) /\
  tstamp p3 = tstamp p1 /\ wait_ms p3 = wait_ms p1 /\ retry p3 = retry p1 /\ seqn p3 = seqn p1 /\ rq_offline p3 = rq_offline p1 /\ rq_event p3 = rq_event p1 /\
  sc_capable (fl p3) = sc_capable (fl p1) /\ cmdq p3 = cmdq p1 /\
  (~ keyset_acked p1 -> p3 = state_reset false p1).
Proof.
  intros [N -> | p2 K T ->].
  - repeat split; auto.
  - destruct T as [U -> | ty n k d U E TA ->]; repeat split; auto; simpl; try congruence; intros X; exfalso; apply X; exact K.
Qed.

(* the moves of one refresh *)
Record moves (p q : pd) : Prop := {
  mv_succ : successor (state p) (state q) = true;
  mv_online : state q = SOnline -> state p <> SOnline ->
    (state p = SCapdet /\ enforce (fl p) = false) \/
    (state p = SScrypt /\ sc_active (fl q) = true) \/
    (state p = SScrypt /\ enforce (fl p) = false) \/
    (state p = SChlng /\ enforce (fl p) = false /\ sc_active (fl q) = false);
  mv_offline : state q = SOffline -> sc_active (fl q) = false \/ state p = SOffline /\ sc_active (fl q) = sc_active (fl p)
}.

Lemma fin_moves e p1 q ok : fin_pre p1 -> fin_rel e p1 q ok -> moves p1 q.
Proof.
  intros P F. destruct F as [f1 f2 f3 f4 f5 f6 f7 f8 f9 f10]. destruct (core_l _ _ f1) as (c1 & _).
  assert (A : sc_active (fl p1) = true -> state p1 = SOnline \/ state p1 = SSetScbk) by apply P.
  unfold edge_ok, act_ok in *. constructor.
  - destruct (state p1), (state q); simpl; tauto.
  - intros S N. rewrite S in *. destruct (state p1) eqn:SP; try tauto.
    + right; right; right. repeat split; try tauto. rewrite f4. destruct (sc_active (fl p1)); auto. destruct (A eq_refl); congruence.
    + destruct ok; tauto.
  - intros S. rewrite S in *. destruct (state p1) eqn:SP; tauto.
Qed.

Lemma upd_moves e p q rc o : cpi p -> env_typed e -> state_update e p = Ok (q, rc, o) -> moves p q.
Proof.
  intros I ET U. destruct (upd_summary e p q rc o I ET U) as [H | p1 R X PI FP F | p1 p3 ok st R RU X C FP F].
  - destruct H as [h1 h2 h3 h4 h5 h6 h7 h8 h9]. constructor.
    + rewrite h1. destruct (state p); reflexivity.
    + intros S N. exfalso. congruence.
    + intros S. right. split; congruence.
  - destruct (fin_moves e p1 q true FP F) as [m1 m2 m3]. destruct X as [x1 x2 x3 x4 x5 x6 x7 x8 x9 x10 x11 x12 x13 x14].
    rewrite x3, x6 in *. constructor; auto. intros S. destruct (m3 S) as [Y | [Y1 Y2]]; auto.
    left. rewrite Y2. destruct (sc_active (fl p1)) eqn:A; auto. exfalso. destruct (ci_act p I (x13 eq_refl)); congruence.
  - destruct (fin_moves e p3 q (ok && st) FP F) as [m1 m2 m3]. destruct X as [x1 x2 x3 x4 x5 x6 x7 x8 x9 x10 x11 x12 x13 x14].
    destruct (checked_same _ _ _ C) as (c1 & c2 & c3 & c4 & c5 & _). rewrite c1, c2, x3, x6 in *. constructor; auto.
    intros S. destruct (m3 S) as [Y | [Y1 Y2]]; auto.
    left. rewrite Y2. destruct (sc_active (fl p3)) eqn:A; auto. exfalso. destruct (ci_act p I (x13 (c5 eq_refl))); congruence.
Qed.

(** * What a refresh that ends an exchange well has received *)


Lemma good_reply e p p1 r o : cpi p -> phy_state p = PReplyWait -> reply_case e p p1 r o -> r = CNone \/ r = CUnknown ->
  exists pf p2 l o2, got_frame e p pf /\ cbinv pf /\ full pf /\ cp_heard e p (frame_of pf) /\ cp_accepted p (frame_of pf) /\
    decode_packet pf = Ok (p2, DData l) /\ decode_response e p2 l = Ok (p1, r, o2) /\ bytes l /\ 1 <= zlen l <= 250 /\
    rxcore pf = rxcore p /\ cbinv p2 /\ sc_active (fl p2) = sc_active (fl p) /\ o2 = o.
Proof.
  intros I P H K. destruct (ci_rx p I P) as (W & _ & SQ). pose proof (ci_b p I) as CB.
  destruct H as [k N X S|k N X C|pf r o G S F]; [destruct K; discriminate|destruct K; discriminate|].
  pose proof G as (R & W1 & _ & _ & PL & _).
  destruct (rxcore_fields _ _ R) as (a1 & a2 & a3 & a4 & a5 & a6 & a7 & a8 & a9 & a10).
  assert (I1 : cbinv pf) by (eapply cbinv_rx; eauto; apply W1).
  destruct F as [B ->|A B C ->|A B C D ->|k A B C D H|p2 l r o A B C D H1 H2]; try (destruct K; discriminate).
  destruct (got_full _ _ _ G) as (FU & _).
  destruct (cp_decode_packet _ _ _ I1 ltac:(destruct FU as (x & y & _); lia) H1) as (Ip2 & DC & _ & _ & _ & BL & NE & L & RI & EP & SA).
  assert (L1 : 1 <= zlen l) by (destruct l; [congruence|]; rewrite zlen_cons; pose proof (zlen_nonneg l); lia).
  exists pf, p2, l, o. split; auto. split; auto. split; auto. split; [apply got_heard; auto; apply CB|].
  split. { unfold cp_accepted. rewrite a6, a7 in *. auto. }
  rewrite a2 in SA. auto 10.
Qed.

(** * C08: the key is proved before the session opens *)

Record proved_key (h : list cp_entry) (p : pd) (b : bool) : Prop := {
  pk_keyed : keyed b (sc p);
  pk_dflt : b = true -> use_scbkd (fl p) = true;
  pk_heard : exists en e f, In en h /\ ce_call en = Update e /\ state (ce_pd en) = SChlng /\
    cp_heard e (ce_pd en) f /\ cp_accepted (ce_pd en) f /\
    proves_key (base_key b (sc p)) (cp_random (sc p)) f (client_uid (sc p)) (pd_random (sc p))
}.

Lemma proved_mono h x p b q : proved_key h p b -> kcore (sc q) = kcore (sc p) -> (use_scbkd (fl p) = true -> use_scbkd (fl q) = true) ->
  proved_key (x ++ h) q b.
Proof.
  intros [k1 k2 (en & e & f & H1 & H2 & H3 & H4 & H5 & H6)] K U. destruct (kcore_fields _ _ K) as (c1 & c2 & c3 & c4 & c5 & c6 & c7 & c8).
  constructor.
  - eapply keyed_core; eauto.
  - auto.
  - exists en, e, f. split; [apply in_or_app; auto|]. unfold base_key in *. rewrite c1, c5, c6, c8. auto 10.
Qed.

Definition in_session (p : pd) : Prop := state p = SScrypt \/ sc_active (fl p) = true.

Lemma stamped_sc e r p : sc (stamped e r p) = sc p /\ fl (stamped e r p) = fl p /\ cmd_id (stamped e r p) = cmd_id p /\ reply_id (stamped e r p) = reply_id p /\
  eph (stamped e r p) = eph p /\ state (stamped e r p) = state p /\ seqn (stamped e r p) = seqn p.
Proof. destruct (stamped_fx e r p) as (a & b & ->). repeat split. Qed.

Lemma chlng_done e p p1 p3 q : cpi p -> reason e p p1 true -> checked p1 p3 true -> pre_fx p p1 -> fin_rel e p3 q true ->
  state p = SChlng -> state q = SScrypt -> phy_running p = true ->
  exists f, cp_heard e p f /\ cp_accepted p f /\ keyed (use_scbkd (fl q)) (sc q) /\
    proves_key (base_key (use_scbkd (fl q)) (sc q)) (cp_random (sc q)) f (client_uid (sc q)) (pd_random (sc q)).
Proof.
  intros I R C X F SP SQ RU.
  assert (CK : ~ keyset_acked p1) by (intros (Y & _); rewrite (px_state _ _ X) in Y; congruence).
  destruct (checked_same _ _ _ C) as (_ & _ & _ & _ & _ & _ & _ & _ & _ & _ & _ & _ & _ & E3). specialize (E3 CK).
  assert (SF : fl q = fl q) by reflexivity.
  destruct F as [f1 f2 f3 f4 f5 f6 f7 f8 f9 f10]. unfold scbkd_ok, sc_move in *. rewrite SQ in *.
  assert (S3 : state p3 = SChlng) by (rewrite (checked_state _ _ _ C), (px_state _ _ X); auto). rewrite S3 in *. simpl in f7.
  rewrite f3, f7, E3. change (use_scbkd (fl (state_reset false p1))) with (use_scbkd (fl p1)). change (sc (state_reset false p1)) with (sc p1).
  assert (RF : reply_id p1 = 118).
  { inversion C as [N0 E0 E1|p2 K0 T0 E0]; [|contradiction]. unfold reply_fits in E1. rewrite (px_state _ _ X), SP in E1. lia. }
  pose proof (ci_cmd p I RU) as CM. unfold cmd_of_state in CM. rewrite SP in CM.
  assert (NA : sc_active (fl p) = false).
  { destruct (sc_active (fl p)) eqn:A; auto. destruct (ci_act p I A); congruence. }
  inversion R as [P0 S0| | | |r o p0 P RC E1 K]; subst.
  { destruct S0; congruence. }
  destruct K as [-> | (_ & K & _)]; [|congruence].
  destruct (stamped_sc e CNone p0) as (s1 & s2 & s3 & s4 & _). rewrite s1, s2. rewrite s4 in RF.
  destruct (good_reply e p p0 CNone o I P RC ltac:(auto)) as (pf & p2 & l & o2 & G & I1 & FU & HE & AC & D1 & D2 & BL & LL & RX & _).
  destruct (rxcore_fields _ _ RX) as (a1 & a2 & a3 & a4 & a5 & a6 & a7 & a8 & a9 & a10).
  destruct (ccrypt_proof e pf p2 l p0 o2 I1 FU D1 D2 RF) as (c1 & c2 & c3 & c4 & c5).
  { congruence. }
  { rewrite a8. pose proof (cv_ty _ (ci_b p I)) as TY. apply TY. }
  exists (frame_of pf). rewrite c4. auto.
Qed.

Lemma idle_reason e p p1 ok : reason e p p1 ok -> phy_state p = PIdle ->
  (state p = SOnline \/ state p = SOffline) /\ tstamp p1 = tstamp p /\ kcore (sc p1) = kcore (sc p) /\ fl p1 = fl p /\ rq_offline p1 = rq_offline p.
Proof.
  intros R P. destruct R as [_ A B C D E|o S| | |]; try congruence; auto. exfalso. destruct S as [S|[S _]]; congruence.
Qed.

Theorem key_proved k n i h p : cp_runs k n i h p -> in_session p -> exists b, proved_key h p b.
Proof.
  induction 1 as [p T E|h p c q o R IH CT D]; intros S.
  { exfalso. unfold new_pd in E. destruct S as [S|S]; destruct (i_scbk i); try destruct (enforce _); try discriminate; injection E as <-; discriminate. }
  pose proof (cp_runs_inv _ _ _ _ _ R) as I.
  destruct (is_update c) eqn:UC.
  2:{ destruct (other_eq c p q o UC D) as [U _]. destruct (ucore_fields _ _ U) as (u1 & u2 & u3 & u4 & u5 & u6 & u7 & u8 & u9 & u10 & _).
      destruct IH as (b & B). { unfold in_session in *. rewrite u1, u9 in S. auto. }
      exists b. apply (proved_mono h [_] p b q B); congruence. }
  destruct c as [e| | | | |]; try discriminate. destruct (cp_do_update e p q o D) as (rc & U). 
  destruct (upd_summary e p q rc o I CT U) as [H | p1 RE X PI FP F | p1 p3 ok st RE RU X C FP F].
  - destruct H as [h1 h2 h3 h4 h5 h6 h7 h8 h9 h10]. destruct IH as (b & B). { unfold in_session in *. rewrite h1, h9 in S. auto. }
    exists b. apply (proved_mono h [_] p b q B); auto.
  - destruct (idle_reason e p p1 true RE PI) as (ST & _ & KC & FE & _). rewrite <- (px_state _ _ X) in ST.
    destruct F as [f1 f2 f3 f4 f5 f6 f7 f8 f9 f10].
    unfold edge_ok, act_ok, scbkd_ok, sc_move in *. unfold in_session in *. pose proof (fp_act p1 FP) as AC.
    assert (SA : sc_active (fl q) = true /\ state q = SOnline /\ state p1 = SOnline).
    { destruct ST as [ST|ST]; rewrite ST in *; destruct (state q) eqn:SQ; try tauto; destruct S as [S|S]; try discriminate; auto.
      - exfalso. rewrite f4 in S. rewrite FE in *. destruct f2 as (g1 & [g2 | (g3 & g4)]).
        + rewrite (px_rq _ _ X) in g2. discriminate.
        + unfold sc_should_retry in g4. rewrite FE, S in g4. simpl in g4. rewrite ?andb_false_r, ?andb_false_l in g4. discriminate.
      - destruct f4 as [[Y _]|Y]; congruence.
      - exfalso. rewrite f4 in S. destruct (AC S); congruence.
      - exfalso. destruct f4 as [[_ Y]|Y]; rewrite Y in S; [|discriminate]. destruct (AC S); congruence. }
    destruct SA as (A1 & A2 & A3). rewrite A2, A3 in *. simpl in f7.
    destruct IH as (b & B). { right. rewrite <- FE, <- f4. auto. }
    exists b. apply (proved_mono h [_] p b q B); [congruence|]. rewrite f3, FE. auto.
  - destruct (ok && st) eqn:OK.
    2:{ (* a failed exchange closes the session *)
        exfalso. pose proof F as [f1 f2 f3 f4 f5 f6 f7 f8 f9 f10]. unfold edge_ok, act_ok in *. unfold in_session in S. pose proof (fp_act p3 FP) as AC.
        pose proof (fp_rq p3 FP) as RQ.
        destruct (state p3) eqn:S3, (state q) eqn:SQ; try tauto; destruct S as [S|S]; try discriminate; try (destruct f2; discriminate).
        all: try (destruct f4 as [[Y Y2]|Y]; try discriminate; congruence).
        all: try (rewrite f4 in S; destruct (AC S); discriminate).
        - destruct f2 as [f2 [g|[g _]]]; [|discriminate]. destruct (RQ g) as [_ Y]. congruence.
        - destruct f4 as [[_ Y]|Y]; [|congruence]. rewrite Y in S. destruct (AC S); discriminate. }
    apply andb_true_iff in OK. destruct OK as [-> ->].
    pose proof F as [f1 f2 f3 f4 f5 f6 f7 f8 f9 f10]. unfold edge_ok, act_ok, scbkd_ok, sc_move in *. pose proof (fp_act p3 FP) as AC.
    destruct (checked_same _ _ _ C) as (d1 & d2 & d3 & d4 & d5 & _ & _ & _ & _ & _ & _ & _ & _ & d6).
    assert (S1 : state p1 = state p) by apply X.
    assert (CASES : (state p = SChlng /\ state q = SScrypt) \/ (in_session p /\ state p <> SChlng /\ sc q = sc p3 /\ ~ keyset_acked p1 /\ (use_scbkd (fl p3) = true -> use_scbkd (fl q) = true))).
    { unfold in_session in *. rewrite d1, S1 in *.
      destruct (state p) eqn:SP, (state q) eqn:SQ; try tauto; destruct S as [S|S]; try discriminate.
      all: try (exfalso; rewrite f4 in S; destruct (AC S); discriminate).
      all: try (exfalso; destruct f4 as [[Y Y2]|Y]; [discriminate|congruence]).
      all: try (exfalso; destruct f4 as [[_ Y]|Y]; rewrite Y in S; [|discriminate]; destruct (AC S); discriminate).
      all: try (right; split; [left; reflexivity|split; [discriminate|split; [exact f7|split; [intros (Y & _); congruence|rewrite f3; auto]]]]).
      all: try congruence.
      - (* online, a handshake is due: not with an open session *)
        exfalso. rewrite f4 in S. destruct f2 as (g1 & [g2 | (g3 & g4)]).
        + destruct (fp_rq p3 FP g2) as [_ Y]. congruence.
        + unfold sc_should_retry in g4. rewrite S in g4. destruct (sc_is_capable p3); simpl in g4; discriminate.
      - right. rewrite f4 in S. split; [right; apply (px_act _ _ X); auto|]. split; [discriminate|]. split; [exact f7|]. split.
        + intros Y. inversion C as [N0 E0 E1|p2 K0 T0 E0]; [contradiction|]. destruct f2 as (_ & Z & _). destruct T0 as [? -> | ? ? ? ? ? ? ? ->]; rewrite E0 in Z; discriminate.
        + rewrite f3; auto. }
    destruct CASES as [[SP SQ] | (IS & SP & Q3 & NK & UQ)].
    + destruct (chlng_done e p p1 p3 q I RE C X F SP SQ RU) as (f & G1 & G2 & G3 & G4).
      exists (use_scbkd (fl q)). constructor; auto. exists (mkCe p (Update e) o), e, f. split; [left; reflexivity|]. auto 10.
    + destruct (IH IS) as (b & B). exists b. specialize (d6 NK). apply (proved_mono h [_] p b q B).
      * rewrite Q3, d6. change (sc (state_reset false p1)) with (sc p1).
        destruct (px_key _ _ X) as [Y | [_ Y]]; auto. exfalso. pose proof (ci_cmd p I RU) as CM. unfold cmd_of_state in CM.
        destruct (state p); try congruence; lia.
      * intros Y. apply UQ. rewrite d6. change (use_scbkd (fl (state_reset false p1))) with (use_scbkd (fl p1)). apply (px_scbkd1 _ _ X). auto.
Qed.

(** * C33: with ENFORCE_SECURE *)

Record strict (p : pd) : Prop := {
  sk_enf : enforce (fl p) = true;
  sk_inst : install (fl p) = false;
  sk_dflt : use_scbkd (fl p) = false;
  sk_online : state p = SOnline -> sc_active (fl p) = true
}.

(* a good reply leaves the session open *)
Lemma good_keeps e p p1 ok : cpi p -> reason e p p1 ok -> ok = true -> sc_active (fl p1) = sc_active (fl p).
Proof.
  intros I R ->. inversion R as [P S T K F Q| | | |r o p0 P RC E K]; [congruence|].
  subst p1. destruct (stamped_sc e r p0) as (_ & -> & _). destruct (ci_rx p I P) as (W & _ & S0).
  destruct (reply_case_fx e p p0 r o (ci_b p I) S0 W RC) as [c1 c2 c3 c4 c5 c6 c7 c8]. apply c8.
  destruct K as [-> | (-> & _)]; discriminate.
Qed.

Lemma fin_strict e p1 q ok : fin_rel e p1 q ok -> fin_pre p1 -> enforce (fl p1) = true -> install (fl p1) = false -> use_scbkd (fl p1) = false ->
  (state p1 = SOnline -> ok = true -> rq_restart p1 = false -> sc_active (fl p1) = true) -> strict q.
Proof.
  intros F P E IN U A. destruct F as [f1 f2 f3 f4 f5 f6 f7 f8 f9 f10]. destruct (core_l _ _ f1) as (c1 & c2 & _).
  unfold edge_ok, scbkd_ok, act_ok in *. constructor; try congruence.
  - destruct (state p1), (state q); try congruence; try (destruct f3; congruence). destruct f2 as (_ & X & _). congruence.
  - intros S. rewrite S in *. destruct (state p1) eqn:SP; try tauto.
    + destruct f2 as (_ & _ & X). congruence.
    + destruct f2 as (_ & X & _). congruence.
    + destruct ok; congruence.
    + rewrite f4. tauto.
Qed.

Lemma upd_strict e p q rc o : cpi p -> env_typed e -> strict p -> state_update e p = Ok (q, rc, o) -> strict q.
Proof.
  intros I ET [s1 s2 s3 s4] U. destruct (upd_summary e p q rc o I ET U) as [H | p1 RE X PI FP F | p1 p3 ok st RE RU X C FP F].
  - destruct H as [h1 h2 h3 h4 h5 h6 h7 h8 h9 h10]. constructor; try congruence.
    + destruct (use_scbkd (fl q)); auto. destruct (h7 eq_refl); congruence.
    + rewrite h1, h9. auto.
  - pose proof (good_keeps e p p1 true I RE eq_refl) as GA. destruct X as [x1 x2 x3 x4 x5 x6 x7 x8 x9 x10 x11 x12 x13 x14].
    apply (fin_strict e p1 q true F FP); try congruence.
    + destruct (use_scbkd (fl p1)); auto. destruct (x11 eq_refl); congruence.
    + intros S _ _. rewrite GA. apply s4. congruence.
  - pose proof (good_keeps e p p1 ok I RE) as GA. destruct X as [x1 x2 x3 x4 x5 x6 x7 x8 x9 x10 x11 x12 x13 x14].
    destruct (checked_same _ _ _ C) as (d1 & d2 & d3 & d4 & d5 & _ & _ & _ & _ & _ & _ & _ & _ & d6).
    apply (fin_strict e p3 q (ok && st) F FP); try congruence.
    + destruct (use_scbkd (fl p3)); auto. destruct (x11 (d4 eq_refl)); congruence.
    + intros S OK RQ. apply andb_true_iff in OK. destruct OK as [-> ->].
      assert (NK : ~ keyset_acked p1).
      { intros Y. inversion C as [N0 E0 E1|p2 K0 T0 E0]; [contradiction|]. destruct T0 as [? -> | ? ? ? ? ? ? ? ->]; rewrite E0 in RQ; discriminate. }
      rewrite (d6 NK). change (sc_active (fl (state_reset false p1))) with (sc_active (fl p1)). rewrite GA by auto. apply s4. congruence.
Qed.

Lemma other_strict c p q o : is_update c = false -> stays_strict c -> cp_do c p = Ok (q, o) -> strict p -> strict q.
Proof.
  intros U SS D [s1 s2 s3 s4]. destruct (other_eq c p q o U D) as [UC _].
  destruct (ucore_fields _ _ UC) as (u1 & u2 & u3 & u4 & u5 & u6 & u7 & u8 & u9 & u10 & _).
  assert (E : enforce (fl q) = true /\ install (fl q) = false).
  { destruct c as [e|e c| |enf inst ign other ds| |]; simpl in *; try discriminate.
    - destruct (cp_send_command e p c) as [[p1 ok] o1] eqn:S. simpl in D. injection D as <- <-.
      destruct (send_fx e p c p1 ok o1 S) as [(cq & f & -> & _) N]. auto.
    - injection D as <- <-. auto.
    - injection D as <- <-. unfold cp_modify_flag. destruct other; [auto|]. specialize (SS eq_refl). destruct SS as [SS1 SS2].
      destruct enf, inst, ign; simpl; auto; try (rewrite SS1 by auto); try (rewrite SS2 by auto); auto; split; auto; destruct ds; auto; try (specialize (SS1 eq_refl); discriminate); specialize (SS2 eq_refl); discriminate.
    - injection D as <- <-. auto.
    - injection D as <- <-. auto. }
  constructor; try apply E; try congruence. rewrite u1, u9. auto.
Qed.

Theorem strict_runs k n i h p : enforce (i_flags i) = true -> install (i_flags i) = false ->
  cp_runs k n i h p -> Forall (fun en => stays_strict (ce_call en)) h -> strict p.
Proof.
  intros E IN. induction 1 as [p T N|h p c q o R IH CT D]; intros F.
  - unfold new_pd in N. destruct (i_scbk i); [|change (enforce (fl _)) with (enforce (i_flags i)) in N; rewrite E in N; discriminate].
    injection N as <-. constructor; auto. discriminate.
  - inversion F as [|? ? F1 F2]; subst. specialize (IH F2). pose proof (cp_runs_inv _ _ _ _ _ R) as I.
    destruct (is_update c) eqn:UC; [|eapply other_strict; eauto].
    destruct c as [e| | | | |]; try discriminate. destruct (cp_do_update e p q o D) as (rc & U). eapply upd_strict; eauto.
Qed.

(* codes an entry uses outside a session: identification, capabilities, handshake *)
Lemma strict_tx k n i h p en e d : enforce (i_flags i) = true -> install (i_flags i) = false ->
  cp_runs k n i h p -> Forall (fun en => stays_strict (ce_call en)) h -> In en h -> ce_call en = Update e -> In (OTx d) (ce_out en) ->
  tx_is e (ce_pd en) d /\ (sc_active (fl (ce_pd en)) = true \/ In (cmd_id (ce_pd en)) [97; 98; 118; 119]).
Proof.
  intros E IN R F HI CE OT.
  induction R as [p T N|h p c q o R IH CT D]; [destruct HI|].
  inversion F as [|? ? F1 F2]; subst. destruct HI as [<- | HI]; [|apply IH; auto].
  simpl in CE, OT. subst c. destruct (cp_do_update e p q o D) as (rc & U). pose proof (cp_runs_inv _ _ _ _ _ R) as I.
  destruct (upd_tx e p q rc o d I CT U OT) as (SE & RU & TX). simpl. split; auto.
  pose proof (strict_runs k n i h p E IN R F2) as [s1 s2 s3 s4].
  pose proof (ci_cmd p I RU) as CM. unfold cmd_of_state in CM. pose proof (ci_set p I) as CS.
  destruct (state p); auto 10; try (right; rewrite CM; simpl; auto 10; fail).
  - destruct (CS eq_refl). congruence.
Qed.
