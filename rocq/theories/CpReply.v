(** CP: replies that answer a command, command status reports, and events handed to the application. *)
From Verif Require Import Base ListLemmas Crc SpecCrc CrcProofs CrcBurst Aes AesProofs Rb RbProofs
  Types Sc ScProofs Phy PhyCheck File Pd Cp SpecRx SpecFrame SpecSec SpecSession SpecReply SpecAuth RxProofs RxFwd PdRx PdCore PhyTx PdTx PdReply
  PdStep PdRun PdWire PdFwd PdSec PdHist2 WireSec SaysProofs AuthProofs CpCtx SpecPd SpecCp SpecCpRun CpTx CpRx CpStep CpInv CpEdge CpFacts CpSum CpWire CpHist CpTime CpFwd CpRetry CpSeq CpQueue.
From Coq Require Import ZifyBool ZifyNat.
Ltac Zify.zify_post_hook ::= Z.div_mod_to_equations.
Local Opaque aes_ecb_encrypt aes_cbc_encrypt aes_cbc_decrypt mac_of RB_SIZE osdp_mac enc1 cap_entries osdp_encrypt encrypt_data.

(* an intact frame for this entry, with the number of the command sent last, arrived and says l; inside
   a session it is authentic, but for the exceptions *)
Definition heard_reply (e : env) (p : pd) (l : list Z) : Prop :=
  exists f, cp_heard e p f /\ cp_accepted p f /\ f_says (sc_active (fl p)) (s_enc (sc p)) (c_mac (sc p)) f l /\
    (sc_active (fl p) = true -> genuine (s_mac1 (sc p)) (s_mac2 (sc p)) (c_mac (sc p)) (cmd_id p) f l).

Lemma got_says e p pf p2 l : cpi p -> got_frame e p pf -> cbinv pf -> cp_accepted p (frame_of pf) -> decode_packet pf = Ok (p2, DData l) -> heard_reply e p l.
Proof.
  intros I G CB A D. destruct (got_full _ _ _ G) as (FU & _). pose proof G as (R & _).
  exists (frame_of pf). split; [apply got_heard; auto; apply (ci_b p I)|]. split; auto.
  destruct (rxcore_fields _ _ R) as (a1 & a2 & a3 & a4 & a5 & a6 & a7 & a8 & a9 & a10).
  assert (S : sc pf = sc p) by exact (f_equal (fun x => sc x) R). assert (F : sc_active (fl pf) = sc_active (fl p)) by exact (f_equal (fun x => sc_active (fl x)) R).
  pose proof (decode_says pf p2 l D (cv_rxb pf CB) FU ltac:(intros; apply (cv_ty pf CB))) as X.
  unfold last_in in X. rewrite (cv_mode pf CB), S, F in X. split; [exact X|]. intros AC.
  assert (CI : cmd_id pf = cmd_id p) by exact (f_equal (fun x => cmd_id x) R).
  rewrite <- S, <- CI. apply (decode_genuine pf p2 l D (cv_rxb pf CB) FU); [apply (cv_ty pf CB)|apply (cv_mode pf CB)|congruence].
Qed.

Lemma good_heard e p p1 r o : cpi p -> phy_state p = PReplyWait -> reply_case e p p1 r o -> r = CNone \/ r = CUnknown ->
  exists l p2, heard_reply e p l /\ decode_response e p2 l = Ok (p1, r, o) /\ bytes l /\ 1 <= zlen l <= 250 /\ reply_id p1 = getb l 0 /\ cmd_id p1 = cmd_id p /\
    caps p2 = caps p.
Proof.
  intros I P H K. destruct (reply_phy e p p1 r o I P H) as (_ & _ & C & _).
  destruct (good_reply e p p1 r o I P H K) as (pf & p2 & l & o2 & G & CB & FU & HE & AC & D1 & D2 & BL & ZL & RC & C2 & SA & ->).
  exists l, p2. split; [eapply got_says; eauto|]. split; auto. split; auto. split; auto.
  split; [apply (rr_id _ _ _ _ _ _ (decode_response_rel _ _ _ _ _ _ D2 ltac:(lia)))|]. split; auto.
  destruct (cp_decode_packet _ _ _ CB ltac:(destruct FU as (x & y & _); lia) D1) as (_ & DC & _).
  transitivity (caps pf); [exact (f_equal (fun x => caps x) DC)|exact (f_equal (fun x => caps x) RC)].
Qed.

(** * C38 *)
Lemma poll_reply_in r : poll_reply r = true <-> In r [72; 73; 74; 75; 80; 83; 144].
Proof. unfold poll_reply, REPLY_LSTATR, REPLY_ISTATR, REPLY_OSTATR, REPLY_RSTATR, REPLY_MFGREP, REPLY_RAW, REPLY_KEYPAD. simpl. split; intros; lia. Qed.

Lemma expected_in c r : expected_reply c r = true -> In (c, r) [(124, 122); (110, 84); (128, 144); (100, 72); (101, 73); (102, 74); (103, 75)].
Proof.
  unfold expected_reply, CMD_FILETRANSFER, CMD_COMSET, CMD_MFG, CMD_LSTAT, CMD_ISTAT, CMD_OSTAT, CMD_RSTAT, REPLY_FTSTAT, REPLY_COM, REPLY_MFGREP, REPLY_LSTATR, REPLY_ISTATR, REPLY_OSTATR, REPLY_RSTATR.
  intros H. repeat match type of H with context [if ?a =? ?b then _ else _] => destruct (a =? b) eqn:?; [assert (a = b) by lia; assert (r = match b with 124 => 122 | 110 => 84 | 128 => 144 | 100 => 72 | 101 => 73 | 102 => 74 | _ => 75 end) by (cbn; lia); subst; cbn; auto 10|] end. discriminate.
Qed.

(* the reply with payload l is one the online entry accepts *)
Definition fitting (p : pd) (l : list Z) : Prop :=
  answers_cmd (cmd_id p) (getb l 0) \/ (cmd_id p = 96 /\ ign_unsol (fl p) = true /\ getb l 0 <> 65).

Lemma fits_answers p : state p = SOnline -> reply_fits p = true ->
  answers_cmd (cmd_id p) (reply_id p) \/ cmd_id p = 96 /\ ign_unsol (fl p) = true /\ reply_id p <> 65.
Proof.
  unfold reply_fits, online_fits, answers_cmd. intros ->. destruct (reply_id p =? 64) eqn:A; [left; left; lia|].
  destruct ((reply_id p =? 65) || (reply_id p =? 0)) eqn:B; [discriminate|]. destruct (cmd_id p =? 96) eqn:C.
  - destruct (poll_reply (reply_id p)) eqn:D; [|intros; right; split; [lia|split; [auto|lia]]].
    left. right. left. split; [lia|]. apply poll_reply_in; auto.
  - intros H. left. right. right. apply expected_in; auto.
Qed.

(* the exchange of an online entry is over *)
Lemma online_answered e p q rc o : cpi p -> tinv p -> env_typed e -> state_update e p = Ok (q, rc, o) ->
  state p = SOnline -> phy_running p = true -> phy_running q = false ->
  (exists l, heard_reply e p l /\ fitting p l) \/ state q = SOffline \/ (state q = SChlng /\ cmd_id p = 117).
Proof.
  intros I T ET U SO RP RQ. destruct (upd_summary e p q rc o I ET U) as [H|p1 R X P F|p1 p3 ok st R RP' X C FP F].
  - destruct H. congruence.
  - unfold phy_running in RP. rewrite P in RP. discriminate.
  - assert (S1 : state p1 = SOnline) by (rewrite (px_state _ _ X); auto).
    destruct (ok && st) eqn:OK.
    + left. apply Bool.andb_true_iff in OK as [-> ->].
      remember true as b eqn:B in R. destruct R as [PI _ _ _ _ _ _|o0 _ _|PR RC TO RT|r o0 PR RC K|r o0 p0 PR RC E K]; try discriminate.
      { unfold phy_running in RP. rewrite PI in RP. discriminate. }
      assert (K' : r = CNone \/ r = CUnknown) by tauto.
      destruct (good_heard e p p0 r o0 I PR RC K') as (l & p2 & HE & D & BL & ZL & RI & CI & _).
      exists l. split; auto. destruct (reply_phy e p p0 r o0 I PR RC) as (_ & _ & _ & IG).
      destruct (stamped_sc e r p0) as (_ & s2 & s3 & s4 & _). rewrite <- E in *.
      unfold fitting. rewrite <- RI, <- CI, <- s4, <- s3, <- IG, <- s2.
      remember true as st eqn:ES in C. destruct C as [NK E3|p2' [A1 [A2 A3]] KT E3].
      * apply fits_answers; auto.
      * left. left. auto.
    + right. assert (S3 : state p3 = SOnline) by (rewrite (checked_state _ _ _ C); auto).
      pose proof (fr_edge _ _ _ _ F) as ED. unfold edge_ok in ED. rewrite S3 in ED.
      destruct (state q) eqn:SQ; try tauto; [|destruct ED; discriminate].
      right. split; auto. destruct ED as (_ & [RR|[? _]]); [|discriminate].
      destruct C as [NK E3|p2 (A1 & A2 & A3) KT E3].
      * rewrite E3 in RR. simpl in RR. rewrite (px_rq _ _ X) in RR. discriminate.
      * rewrite <- A2. symmetry. remember ok as b eqn:B in R. destruct R as [PI _ _ _ _ _ _|o0 SN CS|PR RC TO RT|r o0 PR RC K|r o0 p0 PR RC E K].
        -- unfold phy_running in RP. rewrite PI in RP. discriminate.
        -- apply (sent_cmdq e p p1 false o0 I CS).
        -- apply (reply_phy e p p1 _ _ I PR RC).
        -- apply (reply_phy e p p1 _ _ I PR RC).
        -- destruct (stamped_sc e r p0) as (_ & _ & s3 & _). rewrite E, s3. apply (reply_phy e p p0 _ _ I PR RC).
Qed.

(** * Outputs other than transmissions *)
Definition is_notif (ev : event) : bool := match ev with ENotif _ _ _ => true | _ => false end.
(* calls of the event callback with something else than a notification *)
Definition is_report (x : out) : bool := match x with OEv _ ev => negb (is_notif ev) | OEvRaw _ _ => true | _ => false end.
(* reports on the outcome of a command *)
Definition is_status (x : out) : bool := match x with OEv _ (ENotif 0 _ _) => true | _ => false end.
Definition silent (o : list out) : Prop := Forall (fun x => is_report x = false /\ is_status x = false) o.

Lemma silent_reports o : silent o -> filter is_report o = [] /\ filter is_status o = [].
Proof. induction 1 as [|x t [A B] _ [I1 I2]]; simpl; [auto|]. rewrite A, B. auto. Qed.
Lemma silent_app a b : silent a -> silent b -> silent (a ++ b).
Proof. intros. apply Forall_app. auto. Qed.
Lemma silent_notify e p ty a b : ty = 1 \/ ty = 2 -> silent (notify e p ty a b).
Proof. intros H. unfold notify. destruct (_ && _); [apply Forall_cons; [destruct H as [-> | ->]; auto|]|]; apply Forall_nil. Qed.
Ltac sil := repeat (apply silent_app || (apply silent_notify; lia) || (apply Forall_cons; [split; reflexivity|]) || apply Forall_nil).

Lemma file_get_silent e p q c o : file_tx_get_command e p = (q, c, o) -> silent o.
Proof.
  intros H. unfold file_tx_get_command in H. destruct (file p) as [f|] eqn:FP; [|inv H; sil].
  destruct (f_state f); try (inv H; sil; fail); (destruct (_ || _); [unfold file_tx_abort in H; rewrite FP in H; destruct (in_progress f); inv H; sil|]);
  (destruct (_ && _); [inv H; sil|]); destruct (Z.testbit _ _); inv H; sil.
Qed.

Lemma get_cmd_silent e p q c o : state_get_cmd e p = Ok (q, c, o) -> silent o.
Proof.
  unfold state_get_cmd. destruct (state p); try (intros H; inv H; sil; fail). unfold get_online_command.
  destruct (cmdq p). 2: { destruct (translate_cmd _ _); simpl; intros H; inv H; sil. }
  destruct (file_tx_get_command e p) as [[p1 c1] o1] eqn:F. pose proof (file_get_silent _ _ _ _ _ F).
  destruct (negb _); [intros X; inv X; auto|]. destruct (_ >? _); intros X; inv X; auto.
Qed.

Lemma build_silent e p b m p2 l s o : build_cmd_switch e p b m = Ok (p2, l, s, o) -> silent o.
Proof.
  unfold build_cmd_switch. cbv zeta.
  repeat match goal with |- context [if ?c then _ else _] => destruct c eqn:?; try discriminate end;
  unfold assert_len; repeat match goal with |- context [if ?c then _ else _] => destruct c eqn:?; try discriminate end;
  try (intros H; inv H; sil; fail).
  - unfold file_tx_build. destruct (file p) as [f|]; try discriminate.
    destruct (f_state f); try discriminate; (destruct (_ <=? _); [intros H; inv H; sil|]); try (intros H; inv H; sil; fail).
    destruct (e_fread _ _ _) as [d|]; [|intros H; inv H; sil]. destruct (_ >? _); [discriminate|]. destruct (_ =? 0); intros H; inv H; sil.
  - destruct (build_app_cmd p m); simpl; intros H; inv H; sil.
Qed.

Lemma sent_silent e p p1 ok o : cmd_sent e p p1 ok o -> silent o.
Proof.
  intros [(_ & _ & _ & ->)|(_ & p2 & pay & ss & ob & BS & _ & _ & _ & _ & _ & H)]; [sil|]. pose proof (build_silent _ _ _ _ _ _ _ _ BS) as S.
  destruct H as [(_ & _ & _ & ->)|(d & _ & _ & _ & _ & _ & _ & _ & _ & [(_ & _ & -> & _)|(_ & (ot & -> & SN) & _)])]; auto.
  apply silent_app; auto. destruct SN as [(-> & _)|[(k & X)|(-> & _)]]; [sil| |sil].
  destruct X as (_ & -> & _). sil.
Qed.

Lemma keyset_silent e p q o : keyset_complete e p = Ok (q, o) -> silent o.
Proof.
  unfold keyset_complete. destruct (if negb _ then _ else _); simpl; try discriminate. intros H. inv H. apply silent_notify. auto.
Qed.

Lemma next_silent e p ok p1 n1 o1 : (if ok : bool then next_ok_state e p else Ok (next_err_state e p)) = Ok (p1, n1, o1) ->
  silent o1 /\ (forall ev, eph p1 = EphEv ev -> eph p = EphEv ev) /\ (state p = SOnline -> p1 = p) /\ idx p1 = idx p /\ rq_event p1 = rq_event p.
Proof.
  destruct ok.
  - unfold next_ok_state. destruct (state p) eqn:S; intros H.
    + inv H. split; [sil|]. repeat split; auto; congruence.
    + destruct (sc_is_capable p); [|destruct (enforce (fl p))]; inv H; (split; [sil|]); repeat split; auto; congruence.
    + inv H. split; [sil|]. repeat split; auto; congruence.
    + cbv zeta in H. destruct (use_scbkd _); inv H; (split; [apply silent_notify; auto|]); repeat split; auto; try congruence; simpl; intros; discriminate.
    + destruct (keyset_complete e p) as [[p2 o2]| |] eqn:K; simpl in H; try discriminate. inv H. split; [eapply keyset_silent; eauto|].
      unfold keyset_complete in K. destruct (negb (use_scbkd (fl p))).
      * destruct (eph p) as [| |c| |] eqn:E; try discriminate. destruct c; try discriminate. destruct (take_arr _ _); try discriminate. simpl in K. rewrite S in K. inv K. simpl. rewrite E. repeat split; auto; congruence.
      * simpl in K. rewrite S in K. inv K. simpl. repeat split; auto; congruence.
    + inv H. split; [sil|]. repeat split; auto; congruence.
    + inv H. split; [sil|]. repeat split; auto; congruence.
  - unfold next_err_state. destruct (state p) eqn:S; intros H.
    + inv H. split; [sil|]. repeat split; auto; congruence.
    + inv H. split; [sil|]. repeat split; auto; congruence.
    + destruct (enforce (fl p)); [|destruct (negb (use_scbkd (fl p)))]; inv H; (split; [sil|]); repeat split; auto; congruence.
    + inv H. split; [sil|]. repeat split; auto; congruence.
    + cbv zeta in H. inv H. split; [apply silent_notify; auto|]. repeat split; auto; congruence.
    + inv H. split; [sil|]. repeat split; auto; congruence.
    + inv H. split; [sil|]. repeat split; auto; congruence.
Qed.

Lemma change_silent e p n q o : state_change e p n = (q, o) -> silent o.
Proof.
  unfold state_change. destruct n; intros H; inv H; try (sil; fail); unfold notify_sc_status, notify_pd_status; sil.
Qed.

Lemma requests_out e p n q n2 o : do_requests e p n = (q, n2, o) ->
  o = [] \/ rq_event p = true /\ (exists p', o = do_event_callback e p' /\ eph p' = eph p /\ idx p' = idx p).
Proof.
  unfold do_requests. destruct (_ || _); [|intros H; inv H; auto].
  destruct (rq_restart p); simpl; (destruct (rq_offline p); simpl); destruct (rq_event p) eqn:E; simpl; intros H; inv H; auto; right; split; auto; eexists; (split; [reflexivity|]); split; reflexivity.
Qed.

Lemma requests_online e p n q n2 o : do_requests e p n = (q, n2, o) -> state p = SOnline -> rq_event p = true -> exists p', o = do_event_callback e p' /\ eph p' = eph p /\ idx p' = idx p.
Proof.
  unfold do_requests. intros H S E. rewrite S in H. simpl in H.
  destruct (rq_restart p); simpl in H; (destruct (rq_offline p); simpl in H); rewrite E in H; simpl in H; inv H; eexists; (split; [reflexivity|]); split; reflexivity.
Qed.

Lemma finish_events e cur p ok o0 q rc o : finish_update e cur p ok o0 = Ok (q, rc, o) ->
  exists a cb b, o = o0 ++ a ++ cb ++ b /\ silent a /\ silent b /\
    (cb = [] \/ rq_event p = true /\ (cb = [] \/ (exists ev, cb = [OEv (idx p) ev] /\ eph p = EphEv ev) \/
       (exists x, cb = [OEvRaw (idx p) x] /\ (forall ev, x <> EphEv ev) /\ (state p = SOnline -> x = eph p)))) /\
    (state p = SOnline -> rq_event p = true -> e_evcb e = true -> forall ev, eph p = EphEv ev -> cb = [OEv (idx p) ev]).
Proof.
  unfold finish_update. intros H.
  destruct (if ok then _ else _) as [[[p1 n1] o1]| |] eqn:NX; simpl in H; try discriminate.
  destruct (next_silent e p ok p1 n1 o1 NX) as (S1 & EE & SO & IX & RQ).
  destruct (do_requests e p1 n1) as [[p2 n2] o2] eqn:DR.
  assert (CB : o2 = [] \/ rq_event p = true /\ (o2 = [] \/ (exists ev, o2 = [OEv (idx p) ev] /\ eph p = EphEv ev) \/
       (exists x, o2 = [OEvRaw (idx p) x] /\ (forall ev, x <> EphEv ev) /\ (state p = SOnline -> x = eph p)))).
  { destruct (requests_out _ _ _ _ _ _ DR) as [->|(R & p' & -> & E2 & I2)]; auto. right. rewrite <- RQ. split; auto.
    unfold do_event_callback. destruct (e_evcb e); auto. rewrite I2, IX. right.
    destruct (eph p') eqn:EP; try (right; eexists; split; [reflexivity|split; [congruence|intros SS; rewrite (SO SS) in *; congruence]]). left. eexists. split; [reflexivity|]. apply EE. congruence. }
  assert (ON : state p = SOnline -> rq_event p = true -> e_evcb e = true -> forall ev, eph p = EphEv ev -> o2 = [OEv (idx p) ev]).
  { intros S R C ev E. rewrite (SO S) in DR. destruct (requests_online _ _ _ _ _ _ DR S R) as (p' & -> & E2 & I2). unfold do_event_callback. rewrite C, E2, E, I2. reflexivity. }
  destruct (st_eqb cur n2).
  - injection H as <- <- <-. exists o1, o2, []. rewrite app_nil_r. split; auto. split; auto. split; [sil|auto].
  - destruct (state_change e p2 n2) as [p3 o3] eqn:CH. injection H as <- <- <-. exists o1, o2, o3. split; auto. split; auto. split; [eapply change_silent; eauto|auto].
Qed.

Lemma file_stat_silent e p d q b o : file_stat_decode e p d = Ok (q, b, o) -> silent o.
Proof.
  unfold file_stat_decode. destruct (file p) as [f|]; [|intros H; inv H; sil].
  dif; [intros H; inv H; sil|]. dif; [intros H; inv H; sil|]. dif; [discriminate|]. dif; [discriminate|]. cbv zeta.
  dif; [intros H; inv H; sil|].
  assert (N : forall b : bool, silent (if b then [OFClose] else [])) by (intros [|]; sil).
  dif; [intros H; inv H; auto|]. dif; [intros H; inv H; auto|]. dif; intros H; inv H; auto.
Qed.

Lemma resp_silent e p l q r o : decode_response e p l = Ok (q, r, o) -> 1 <= zlen l -> silent o.
Proof.
  intros D L. destruct (decode_response_rel _ _ _ _ _ _ D L) as [_ _ _ _ _ _ _ a8 _ _].
  destruct (Z.eq_dec (getb l 0) 122) as [E|NE]; [|destruct (a8 NE) as (_ & _ & ->); sil].
  unfold decode_response in D. cbv zeta in D. rewrite E in D. codes D.
  destruct (file_stat_decode _ _ _) as [[[p1 b] o1]| |] eqn:F; simpl in D; try discriminate. pose proof (file_stat_silent _ _ _ _ _ _ F).
  destruct b; inv D; auto.
Qed.

Lemma reply_silent e p p1 r o : cpi p -> phy_state p = PReplyWait -> reply_case e p p1 r o -> silent o.
Proof.
  intros I P H. destruct H as [k N K S|k N K C|pf r o G S F]; try (sil; fail).
  destruct F as [B E|A B C E|A B C D E|k A B C D H1|p2 l r o A B C D H1 H2]; try (sil; fail).
  assert (I1 : cbinv pf) by (pose proof G as (R & W1 & _); eapply cbinv_rx; eauto; [apply (ci_b p I)|apply W1]).
  destruct (got_full _ _ _ G) as (FU & _).
  destruct (cp_decode_packet _ _ _ I1 ltac:(destruct FU as (x & y & _); lia) H1) as (_ & _ & _ & _ & _ & BL & NE & L & _).
  assert (L1 : 1 <= zlen l) by (destruct l; [congruence|]; rewrite zlen_cons; pose proof (zlen_nonneg l); lia).
  eapply resp_silent; eauto.
Qed.

Lemma check_silent e p q st o : state_check_reply e p = Ok (q, st, o) -> silent o.
Proof.
  unfold state_check_reply. destruct (state p); try (intros H; inv H; sil; fail). unfold check_online_response. cbv zeta.
  repeat match goal with |- context [if ?c then _ else _] => destruct c eqn:? end; try (intros H; inv H; sil; fail).
  destruct (keyset_complete e p) as [[p2 o2]| |] eqn:K; simpl; try discriminate. intros H. inv H. eapply keyset_silent; eauto.
Qed.

(** * Events *)
Lemma bits_mask_spec : forall d i, 0 <= i -> 0 <= bits_mask i d < 2 ^ (i + zlen d) /\ (forall j, 0 <= j < i -> Z.testbit (bits_mask i d) j = false) /\
  (forall j, (j < length d)%nat -> Z.testbit (bits_mask i d) (i + Z.of_nat j) = negb (nth j d 0 =? 0)) /\ (exists m, bits_mask i d = 2 ^ i * m).
Proof.
  induction d as [|x t IH]; intros i Hi.
  - simpl. change (zlen (@nil Z)) with 0. split; [pose proof (Z.pow_pos_nonneg 2 (i + 0)); lia|]. split; [intros; apply Z.bits_0|]. split; [intros; lia|]. exists 0. lia.
  - cbn [bits_mask]. destruct (IH (i + 1) ltac:(lia)) as ((A1 & A2) & B & C & m & D). rewrite zlen_cons.
    assert (P : 2 ^ (i + 1) = 2 * 2 ^ i) by (rewrite Z.pow_add_r by lia; lia).
    pose proof (Z.pow_pos_nonneg 2 i ltac:(lia) Hi) as PI.
    assert (XE : (if x =? 0 then 0 else 2 ^ i) = Z.b2z (negb (x =? 0)) * 2 ^ i) by (destruct (x =? 0); simpl; lia).
    assert (E : (if x =? 0 then 0 else 2 ^ i) + bits_mask (i + 1) t = (Z.b2z (negb (x =? 0)) + 2 * m) * 2 ^ i) by (rewrite XE, D, P; ring).
    split.
    { split; [destruct (x =? 0); lia|]. assert (EI : i + 1 + zlen t = i + (1 + zlen t)) by lia. rewrite EI in A2. clear EI. rewrite ?(Z.add_comm (zlen t) 1). destruct (x =? 0); [lia|].
      (* the top part is a multiple of 2^(i+1) below 2^(i+1+n) *)
      rewrite (Z.pow_add_r 2 i), (Z.pow_add_r 2 1) in * by (pose proof (zlen_nonneg t); lia). change (2 ^ 1) with 2 in *.
      pose proof (Z.pow_pos_nonneg 2 (zlen t) ltac:(lia) (zlen_nonneg t)) as PT. rewrite D in *. rewrite P in *.
      set (w := 2 ^ i) in *. set (u := 2 ^ zlen t) in *. assert (m < u) by nia. nia. }
    rewrite E. split.
    { intros j Hj. apply Z.mul_pow2_bits_low. lia. }
    split.
    { intros j Hj. rewrite Z.mul_pow2_bits_add by lia. destruct j as [|j].
      - cbn [nth Z.of_nat]. apply Z.add_b2z_double_bit0.
      - cbn [nth]. specialize (C j ltac:(simpl in Hj; lia)). rewrite D in C. 
        replace (2 ^ (i + 1) * m) with (m * 2 ^ (i + 1)) in C by ring. rewrite Z.mul_pow2_bits_add in C by lia. rewrite <- C.
        replace (Z.of_nat (S j)) with (Z.succ (Z.of_nat j)) by lia. rewrite Z.add_comm.
        destruct (x =? 0); cbn [negb Z.b2z]; [rewrite Z.add_0_r; apply Z.testbit_even_succ; lia|apply Z.testbit_odd_succ; lia]. }
    { eexists. rewrite Z.mul_comm. reflexivity. }
Qed.

Lemma bits_mask_of d : mask_of d (bits_mask 0 d).
Proof.
  destruct (bits_mask_spec d 0 ltac:(lia)) as (A & _ & C & _). split; [exact A|]. intros i Hi. exact (C i Hi).
Qed.

Lemma from_cons (l : list Z) : 1 <= zlen l -> l = getb l 0 :: from l 1.
Proof. destruct l; [change (zlen (@nil Z)) with 0; lia|]. reflexivity. Qed.

Lemma le16_split a b : byte a -> byte b -> a = le16 a b mod 256 /\ b = le16 a b / 256.
Proof. unfold byte, le16. lia. Qed.
Lemma le24_split a b c : byte a -> byte b -> byte c -> a = le24 a b c mod 256 /\ b = le24 a b c / 256 mod 256 /\ c = le24 a b c / 65536.
Proof. unfold byte, le24. lia. Qed.

Lemma from_nth (d : list Z) (n : nat) : (n < length d)%nat -> skipn n d = nth n d 0 :: skipn (S n) d.
Proof. revert n. induction d; intros [|n] H; simpl in *; try lia; auto. apply IHd. lia. Qed.

Lemma bit0_nz x : Z.testbit (nz x) 0 = negb (x =? 0).
Proof. unfold nz. destruct (x =? 0); reflexivity. Qed.

Lemma resp_reports e p l q r o : decode_response e p l = Ok (q, r, o) -> bytes l -> 1 <= zlen l <= 250 ->
  (eph q = eph p /\ rq_event q = rq_event p) \/
  (r = CNone /\ rq_event q = true /\ exists ev, eph q = EphEv ev /\ reports l ev).
Proof.
  intros D B L. destruct l as [|c d]; [change (zlen (@nil Z)) with 0 in L; lia|].
  unfold decode_response in D. cbv zeta in D. change (getb (c :: d) 0) with c in D. change (from (c :: d) 1) with d in D.
  assert (BD : bytes d) by (inversion B; auto). assert (LD := zlen_cons c d). pose proof (zlen_nonneg d) as ZN.
  assert (BG : forall i, byte (getb d i)) by (intros i; apply bytes_getb; auto).
  assert (NX : forall x, Ok (set_reply_id c p, x, []) = Ok (q, r, o) -> (eph q = eph p /\ rq_event q = rq_event p) \/
     (r = CNone /\ rq_event q = true /\ exists ev, eph q = EphEv ev /\ reports (c :: d) ev)) by (intros x X; inv X; auto).
  assert (NE : forall ev, Ok (got_event ev (set_reply_id c p), CNone, []) = Ok (q, r, o) -> reports (c :: d) ev -> (eph q = eph p /\ rq_event q = rq_event p) \/
     (r = CNone /\ rq_event q = true /\ exists ev, eph q = EphEv ev /\ reports (c :: d) ev)).
  { intros ev X Y. inv X. right. split; auto. split; auto. exists ev. auto. }
  assert (MK : forall fc ty, dec_mask (set_reply_id c p) fc ty d = Ok (q, r, o) -> (ty = 1 /\ c = 74 \/ ty = 0 /\ c = 73) -> (eph q = eph p /\ rq_event q = rq_event p) \/
     (r = CNone /\ rq_event q = true /\ exists ev, eph q = EphEv ev /\ reports (c :: d) ev)).
  { intros fc ty X Y. clear D. unfold dec_mask in X. destruct (_ || _); [eauto|]. apply (NE _ X). cbn [reports]. exists d.
    split; [destruct Y as [(-> & ->)|(-> & ->)]; reflexivity|]. split; [lia|]. split; [reflexivity|apply bits_mask_of]. }
  destruct (c =? REPLY_ACK); [destruct (negb _); eauto|].
  destruct (c =? REPLY_NAK); [destruct (negb _); eauto|].
  destruct (c =? REPLY_PDID); [destruct (negb _); eauto; inv D; left; split; reflexivity|].
  destruct (c =? REPLY_PDCAP); [destruct (negb _); eauto; inv D; left; unfold read_pdcap; destruct (_ =? CAP_RXBUF); split; reflexivity|].
  destruct (c =? REPLY_OSTATR) eqn:K1; [apply (MK _ _ D); left; unfold REPLY_OSTATR in K1; lia|].
  destruct (c =? REPLY_ISTATR) eqn:K2; [apply (MK _ _ D); right; unfold REPLY_ISTATR in K2; lia|].
  destruct (c =? REPLY_LSTATR) eqn:K3.
  { destruct (negb _) eqn:Z2; [eauto|]. apply (NE _ D). cbn [reports]. exists d. unfold REPLY_LSTATR in K3.
    destruct d as [|x [|y [|z t]]]; rewrite ?zlen_cons in Z2; change (zlen (@nil Z)) with 0 in Z2; try (pose proof (zlen_nonneg t)); try lia.
    split; [cbn; f_equal; lia|]. split; [lia|]. split; [reflexivity|]. change (getb [x; y] 0) with x. change (getb [x; y] 1) with y.
    unfold nz. split; [change (zlen [x; y]) with 2; destruct (x =? 0), (y =? 0); cbn; lia|].
    intros [|[|i]] Hi; simpl in Hi; try lia; cbn [nth Z.of_nat]; destruct (x =? 0), (y =? 0); reflexivity. }
  destruct (c =? REPLY_RSTATR) eqn:K4.
  { destruct (negb _) eqn:Z2; [eauto|]. apply (NE _ D). cbn [reports]. exists d. unfold REPLY_RSTATR in K4.
    destruct d as [|x [|z t]]; rewrite ?zlen_cons in Z2; change (zlen (@nil Z)) with 0 in Z2; try (pose proof (zlen_nonneg t)); try lia.
    split; [cbn; f_equal; lia|]. split; [lia|]. split; [reflexivity|]. change (getb [x] 0) with x.
    unfold nz. split; [change (zlen [x]) with 1; destruct (x =? 0); cbn; lia|].
    intros [|i] Hi; simpl in Hi; try lia; cbn [nth Z.of_nat]; destruct (x =? 0); reflexivity. }
  destruct (c =? REPLY_COM); [destruct (negb _); eauto; inv D; left; split; reflexivity|].
  destruct (c =? REPLY_KEYPAD) eqn:K5.
  { destruct (_ <? 2) eqn:Z0; [eauto|]. destruct (negb _) eqn:Z2; [eauto|]. destruct (_ >? 64); [discriminate|]. apply (NE _ D). unfold REPLY_KEYPAD in K5.
    destruct d as [|x [|y t]]; rewrite ?zlen_cons in Z0; change (zlen (@nil Z)) with 0 in Z0; try lia.
    change (getb (x :: y :: t) 0) with x in *. change (getb (x :: y :: t) 1) with y in *. change (from (x :: y :: t) 2) with t.
    rewrite !zlen_cons in Z2. cbn [reports]. split; [cbn; f_equal; lia|lia]. }
  destruct (c =? REPLY_RAW) eqn:K6.
  { destruct (_ <? 4) eqn:Z0; [eauto|]. destruct (negb _) eqn:Z2; [eauto|]. destruct (_ >? 64); [discriminate|]. apply (NE _ D). unfold REPLY_RAW in K6.
    pose proof (le16_split (getb d 2) (getb d 3) (BG 2) (BG 3)) as (A1 & A2).
    destruct d as [|x [|y [|z [|w t]]]]; rewrite ?zlen_cons in Z0; change (zlen (@nil Z)) with 0 in Z0; try lia.
    change (getb (x :: y :: z :: w :: t) 0) with x in *. change (getb (x :: y :: z :: w :: t) 1) with y in *.
    change (getb (x :: y :: z :: w :: t) 2) with z in *. change (getb (x :: y :: z :: w :: t) 3) with w in *. change (from (x :: y :: z :: w :: t) 4) with t.
    rewrite !zlen_cons in Z2. cbn [reports]. rewrite <- A1, <- A2. split; [reflexivity|]. split; [cbn; f_equal; lia|].
    apply Bool.negb_false_iff in Z2. apply Z.eqb_eq in Z2. rewrite Z2. lia. }
  destruct (c =? REPLY_FMT); [eauto|]. destruct (c =? REPLY_BUSY); [destruct (negb _); eauto|].
  destruct (c =? REPLY_MFGREP) eqn:K7.
  { destruct (_ <? 4) eqn:Z0; [eauto|]. destruct (_ >? 128); [eauto|]. apply (NE _ D). unfold REPLY_MFGREP in K7.
    pose proof (le24_split (getb d 0) (getb d 1) (getb d 2) (BG 0) (BG 1) (BG 2)) as (A1 & A2 & A3).
    destruct d as [|x [|y [|z [|w t]]]]; rewrite ?zlen_cons in Z0; change (zlen (@nil Z)) with 0 in Z0; try lia.
    change (getb (x :: y :: z :: w :: t) 0) with x in *. change (getb (x :: y :: z :: w :: t) 1) with y in *.
    change (getb (x :: y :: z :: w :: t) 2) with z in *. change (getb (x :: y :: z :: w :: t) 3) with w in *. change (from (x :: y :: z :: w :: t) 4) with t.
    rewrite !zlen_cons in *. cbn [reports]. rewrite <- A1, <- A2, <- A3. split; [cbn; f_equal; lia|]. unfold u8. pose proof (zlen_nonneg t). rewrite Z.mod_small; lia. }
  destruct (c =? REPLY_FTSTAT).
  { destruct (file_stat_decode _ _ _) as [[[p1 b] o1]| |] eqn:F; simpl in D; try discriminate. apply file_stat_rel in F as (F & _).
    left. assert (E : q = p1) by (destruct b; inv D; auto). subst q. destruct F as [-> |(f & [-> | ->])]; split; reflexivity. }
  destruct (c =? REPLY_CCRYPT).
  { destruct (_ || _); [eauto|]. destruct (negb _); [eauto|]. cbv zeta in D. left.
    pose proof (ccrypt_facts p c (sub d 16 16) (sub d 8 8) (sub d 0 8)) as ((_ & _ & _ & _ & X1 & X2 & _) & _).
    destruct (verify_pd_cryptogram _); injection D as <- <- <-; auto. }
  destruct (c =? REPLY_RMAC_I); [|eauto]. destruct (_ || _); [eauto|]. destruct (negb _); [eauto|]. inv D. left. split; reflexivity.
Qed.

Lemma decode_eph p q r : decode_packet p = Ok (q, r) -> rq_event q = rq_event p /\ (eph q = eph p \/ exists c, eph q = EphNak c).
Proof.
  assert (N : forall c x, rq_event (nak c x) = rq_event x /\ (eph (nak c x) = eph x \/ exists c', eph (nak c x) = EphNak c')) by (intros; split; [reflexivity|right; eexists; reflexivity]).
  unfold decode_packet. cbv zeta.
  assert (S : forall p1 b m o l, eph p1 = eph p -> rq_event p1 = rq_event p -> decode_secure p1 b m o l = Ok (q, r) -> rq_event q = rq_event p /\ (eph q = eph p \/ exists c, eph q = EphNak c)).
  { intros p1 b m o l E1 E2 H. unfold decode_secure in H. cbv zeta in H.
    destruct (compute_mac _ p1 _) as [p2| |] eqn:CM; cbn [bind] in H; try discriminate.
    assert (X : eph p2 = eph p1 /\ rq_event p2 = rq_event p1).
    { unfold compute_mac in CM. cbv zeta in CM. destruct (_ =? 0); [discriminate|]. destruct (pd_mode (fl p1)); injection CM as <-; split; reflexivity. }
    destruct X as (X1 & X2). rewrite <- E1, <- E2, <- X1, <- X2. 
    destruct (negb _); [injection H as <- <-; exact (N 6 (sc_deactivate p2))|].
    destruct (_ || _).
    - destruct (_ && _); [discriminate|]. destruct (_ <? 0); [injection H as <- <-; exact (N 6 (sc_deactivate p2))|].
      destruct (decrypt_data _ _ _ _) as [[d k]|]; injection H as <- <-; [split; [reflexivity|left; reflexivity]|exact (N 6 (sc_deactivate p2))].
    - injection H as <- <-. auto. }
  destruct (ctl_scb _).
  - destruct (_ && _); [intros H; injection H as <- <-; apply N|]. destruct (_ || _); [intros H; injection H as <- <-; apply N|].
    destruct (_ && _); [intros H; injection H as <- <-; apply N|].
    match goal with |- context [decode_secure ?x] => set (p1 := x) end.
    assert (E : eph p1 = eph p /\ rq_event p1 = rq_event p) by (unfold p1; destruct (_ && _ && _); split; reflexivity). destruct E as (E1 & E2).
    destruct (sc_active (fl p) && _); [eauto|]. intros H; injection H as <- <-. auto.
  - match goal with |- context [if ?b then Ok (nak 6 p, _) else _] => destruct b end; intros H; injection H as <- <-; [apply N|auto].
Qed.

(* where the event that is kept comes from *)
Definition told (e : env) (p : pd) (ev : event) : Prop := exists l, heard_reply e p l /\ reports l ev.

Lemma reply_eph e p p1 r o : cpi p -> phy_state p = PReplyWait -> reply_case e p p1 r o ->
  (rq_event p1 = rq_event p /\ (eph p1 = eph p \/ exists c, eph p1 = EphNak c)) \/
  (r = CNone /\ rq_event p1 = true /\ exists ev, eph p1 = EphEv ev /\ told e p ev).
Proof.
  intros I P H. assert (H0 := H). destruct H as [k N K S|k N K C|pf r o G S F].
  - left. destruct N as (R & _). split; [exact (f_equal (fun x => rq_event x) R)|left; exact (f_equal (fun x => eph x) R)].
  - left. destruct N as (R & _). split; [exact (f_equal (fun x => rq_event x) R)|left; exact (f_equal (fun x => eph x) R)].
  - pose proof G as (R & W1 & _). 
    assert (E1 : rq_event pf = rq_event p) by exact (f_equal (fun x => rq_event x) R).
    assert (E2 : eph pf = eph p) by exact (f_equal (fun x => eph x) R).
    destruct F as [B E|A B C E|A B C D E|k A B C D H1|p2 l r o A B C D H1 H2].
    + left. rewrite E. auto.
    + left. rewrite E. auto.
    + left. rewrite E. split; [exact E1|right; eexists; reflexivity].
    + left. destruct (decode_eph _ _ _ H1) as (X & Y). rewrite X, <- E2. auto.
    + assert (I1 : cbinv pf) by (eapply cbinv_rx; eauto; [apply (ci_b p I)|apply W1]).
      destruct (got_full _ _ _ G) as (FU & _).
      destruct (cp_decode_packet _ _ _ I1 ltac:(destruct FU as (x & y & _); lia) H1) as (_ & DC & _ & _ & _ & BL & NE & L & RI & EP & _).
      assert (L1 : 1 <= zlen l) by (destruct l; [congruence|]; rewrite zlen_cons; pose proof (zlen_nonneg l); lia).
      destruct (decode_eph _ _ _ H1) as (X & _).
      destruct (resp_reports _ _ _ _ _ _ H2 BL ltac:(lia)) as [(Y1 & Y2)|(Y1 & Y2 & ev & Y3 & Y4)].
      * left. split; [congruence|]. left. congruence.
      * right. split; auto. split; auto. exists ev. split; auto. 
        exists l. split; auto. eapply got_says; eauto.
        assert (AD : address pf = address p) by exact (f_equal (fun x => address x) R).
        assert (SQ : seqn pf = seqn p) by exact (f_equal (fun x => seqn x) R).
        rewrite AD in B. rewrite SQ in D. split; [exact A|]. split; [exact B|]. exact D.
Qed.

Lemma silent_status e p st : filter is_report (notify_command_status e p st) = [].
Proof. unfold notify_command_status, notify. destruct (app_cmd_of p); auto. destruct (_ && _); reflexivity. Qed.

Lemma check_eph p1 p3 st : checked p1 p3 st -> eph p3 = eph p1 /\ rq_event p3 = rq_event p1 /\ idx p3 = idx p1.
Proof. intros [N -> |p2 K T ->]; [auto|]. destruct T as [U -> |ty n k d U E TA ->]; auto. Qed.

(* what the event callback is called with by one refresh *)
Definition ev_out (e : env) (p : pd) (o : list out) : Prop :=
  filter is_report o = [] \/
  (exists ev, filter is_report o = [OEv (idx p) ev] /\ (told e p ev \/ rq_event p = true /\ eph p = EphEv ev)) \/
  (exists x, filter is_report o = [OEvRaw (idx p) x] /\ state p <> SOnline /\ forall ev, x <> EphEv ev).

(* the event kept after the reply has been looked at *)
Definition ev_src (e : env) (p p1 : pd) : Prop :=
  (rq_event p1 = rq_event p /\ (eph p1 = eph p \/ forall ev, eph p1 <> EphEv ev)) \/
  (rq_event p1 = true /\ exists ev, eph p1 = EphEv ev /\ told e p ev).

Lemma finish_out e p cur p1 ok o1 q rc o : tinv p -> finish_update e cur p1 ok o1 = Ok (q, rc, o) -> filter is_report o1 = [] -> state p1 = state p -> idx p1 = idx p ->
  ev_src e p p1 -> ev_out e p o.
Proof.
  intros T FU S1 SP IX EV. destruct (finish_events _ _ _ _ _ _ _ _ FU) as (a & cb & b & -> & SA & SB & CC & ON).
  assert (E : filter is_report (o1 ++ a ++ cb ++ b) = filter is_report cb).
  { rewrite !filter_app, S1. destruct (silent_reports _ SA) as (-> & _). destruct (silent_reports _ SB) as (-> & _). simpl. apply app_nil_r. }
  unfold ev_out. rewrite E, IX in *. clear E.
  destruct CC as [-> |(RQ & [-> |[(ev & -> & EE)|(x & -> & NE & XO)]])]; auto.
  - cbn [filter is_report]. destruct (is_notif ev) eqn:NT; cbn [negb]; auto. right. left. exists ev. split; auto.
    destruct EV as [(Y1 & [Y2|Y2])|(Y1 & ev2 & Y2 & TT)]; [right; split; congruence|destruct (Y2 _ EE)|].
    left. congruence.
  - cbn [filter is_report]. right. right. exists x. split; auto. split; auto. intros SO. rewrite SP in XO.
    destruct EV as [(Y1 & _)|(Y1 & ev2 & Y2 & TT)]; [destruct (ti_ev _ T SO); congruence|]. apply (NE ev2). rewrite (XO SO). auto.
Qed.

Lemma requests_eph e p n q n2 o : do_requests e p n = (q, n2, o) -> eph q = eph p.
Proof.
  unfold do_requests. destruct (_ || _); [|intros H; inv H; auto].
  destruct (rq_restart p); simpl; (destruct (rq_offline p); simpl); destruct (rq_event p) eqn:E; simpl; intros H; inv H; auto.
Qed.
Lemma change_eph e p n q o : state_change e p n = (q, o) -> eph q = eph p.
Proof. destruct n; cbn [state_change]; intros H; injection H as <- <-; try reflexivity. destruct (sc_setup_fields (e_rand e) p) as (s & ->). reflexivity. Qed.

Lemma finish_eph e cur p ok o0 q rc o : finish_update e cur p ok o0 = Ok (q, rc, o) -> forall ev, eph q = EphEv ev -> eph p = EphEv ev.
Proof.
  unfold finish_update. intros H ev E.
  destruct (if ok then _ else _) as [[[p1 n1] o1]| |] eqn:NX; simpl in H; try discriminate.
  destruct (next_silent e p ok p1 n1 o1 NX) as (_ & EE & _).
  destruct (do_requests e p1 n1) as [[p2 n2] o2] eqn:DR. apply EE. apply requests_eph in DR.
  destruct (st_eqb cur n2); [injection H as <- _ _; congruence|].
  destruct (state_change e p2 n2) as [p3 o3] eqn:CH. apply change_eph in CH. injection H as <- _ _. congruence.
Qed.

Lemma src_kept e p p1 ev : ev_src e p p1 -> eph p1 = EphEv ev -> eph p = EphEv ev \/ told e p ev.
Proof. intros [(_ & [Y|Y])|(_ & ev2 & Y & T)] E; [left; congruence|destruct (Y _ E)|]. right. congruence. Qed.

Lemma ended_out_events e p ok p1 o1 q o : tinv p -> ended e (state p) ok p1 o1 q o -> state p1 = state p -> idx p1 = idx p -> silent o1 -> ev_src e p p1 -> ev_out e p o.
Proof.
  intros T (p2 & st & o2 & CK & FU) SP IX S1 EV.
  pose proof (check_silent _ _ _ _ _ CK) as S2. destruct (check_checked _ _ _ _ _ CK) as (CH & _).
  destruct (check_eph _ _ _ CH) as (X1 & X2 & X3). pose proof (checked_state _ _ _ CH) as X4.
  eapply (finish_out e p _ _ _ _ _ _ _ T FU); try congruence.
  - rewrite !filter_app, silent_status. destruct (silent_reports _ S1) as (-> & _). destruct (silent_reports _ S2) as (-> & _). reflexivity.
  - unfold ev_src in *. rewrite X1, X2. exact EV.
Qed.


Lemma ended_kept e p ok p1 o1 q o : ended e (state p) ok p1 o1 q o -> ev_src e p p1 -> forall ev, eph q = EphEv ev -> eph p = EphEv ev \/ told e p ev.
Proof.
  intros (p2 & st & o2 & CK & FU) EV ev E. destruct (check_checked _ _ _ _ _ CK) as (CH & _).
  destruct (check_eph _ _ _ CH) as (X1 & X2 & X3). apply (src_kept e p p1); auto. rewrite <- X1. eapply finish_eph; eauto.
Qed.

Lemma reply_src e p p1 r o : cpi p -> phy_state p = PReplyWait -> reply_case e p p1 r o -> ev_src e p p1.
Proof.
  intros I P R. destruct (reply_eph e p p1 r o I P R) as [(A & [B|(c & B)])|(_ & A & B)]; [left; auto|left; split; auto; right; congruence|right; auto].
Qed.

Lemma sent_src e p p1 ok o : cpi p -> cmd_sent e (set_phy_state PSend p) p1 ok o -> ev_src e p p1.
Proof.
  intros I CS. left. split; [|left; apply (sent_cmdq e p p1 ok o I CS)].
  assert (CB : cbinv (set_phy_state PSend p)) by (apply cbinv_phy; apply I).
  exact (f_equal (fun x => rq_event x) (sx_core _ _ _ _ _ (cmd_sent_fx e _ _ _ _ CB CS))).
Qed.

Lemma pick_src e p p1 c o : picked e p p1 c o -> ev_src e p p1 /\ state p1 = state p /\ idx p1 = idx p.
Proof. intros [k cq ? ? -> ? ?|f ? ? -> ?|f ? ? -> ? ?|f ? ? -> ? ?|? -> ?]; (split; [|auto]); left; (split; [reflexivity|]); auto. right. simpl. congruence. Qed.

(* an event that is still to be delivered *)
Lemma requests_rq e p n q n2 o : do_requests e p n = (q, n2, o) -> rq_event q = true -> rq_event p = true /\ o = [].
Proof.
  unfold do_requests. destruct (_ || _); [|intros H; inv H; auto].
  destruct (rq_restart p); simpl; (destruct (rq_offline p); simpl); destruct (rq_event p) eqn:E; simpl; intros H; inv H; simpl; intros X; try discriminate; congruence.
Qed.
Lemma change_rq e p n q o : state_change e p n = (q, o) -> rq_event q = rq_event p.
Proof. destruct n; cbn [state_change]; intros H; injection H as <- <-; try reflexivity. destruct (sc_setup_fields (e_rand e) p) as (s & ->). reflexivity. Qed.
Lemma finish_rq e cur p ok o0 q rc o : finish_update e cur p ok o0 = Ok (q, rc, o) -> filter is_report o0 = [] -> rq_event q = true ->
  rq_event p = true /\ filter is_report o = [].
Proof.
  unfold finish_update. intros H F0 E.
  destruct (if ok then _ else _) as [[[p1 n1] o1]| |] eqn:NX; simpl in H; try discriminate.
  destruct (next_silent e p ok p1 n1 o1 NX) as (S1 & _ & _ & _ & RQ). destruct (silent_reports _ S1) as (F1 & _).
  destruct (do_requests e p1 n1) as [[p2 n2] o2] eqn:DR. rewrite <- RQ.
  destruct (st_eqb cur n2).
  - injection H as <- _ <-. destruct (requests_rq _ _ _ _ _ _ DR E) as (A & ->). split; auto. rewrite !filter_app, F0, F1. reflexivity.
  - destruct (state_change e p2 n2) as [p3 o3] eqn:CH. destruct (silent_reports _ (change_silent _ _ _ _ _ CH)) as (F3 & _). apply change_rq in CH. injection H as <- _ <-.
    destruct (requests_rq _ _ _ _ _ _ DR ltac:(congruence)) as (A & ->). split; auto. rewrite !filter_app, F0, F1, F3. reflexivity.
Qed.
Lemma ended_rq e p ok p1 o1 q o : ended e (state p) ok p1 o1 q o -> silent o1 -> rq_event q = true -> rq_event p1 = true /\ filter is_report o = [].
Proof.
  intros (p2 & st & o2 & CK & FU) S1 E.
  pose proof (check_silent _ _ _ _ _ CK) as S2. destruct (check_checked _ _ _ _ _ CK) as (CH & _).
  destruct (check_eph _ _ _ CH) as (X1 & X2 & X3). rewrite <- X2. eapply finish_rq; eauto.
  rewrite !filter_app, silent_status. destruct (silent_reports _ S1) as (-> & _). destruct (silent_reports _ S2) as (-> & _). reflexivity.
Qed.
Lemma src_rq e p p1 : ev_src e p p1 -> rq_event p1 = true -> rq_event p = true \/ exists ev, told e p ev.
Proof. intros [(A & _)|(_ & ev & _ & T)] E; [left; congruence|eauto]. Qed.

Record ev_step (e : env) (p q : pd) (o : list out) : Prop := {
  es_out : ev_out e p o;
  es_kept : forall ev, eph q = EphEv ev -> eph p = EphEv ev \/ told e p ev;
  es_rq : rq_event q = true -> filter is_report o = [] /\ (rq_event p = true \/ exists ev, told e p ev)
}.

Lemma upd_events e p q rc o : cpi p -> tinv p -> env_typed e -> state_update e p = Ok (q, rc, o) ->
  ev_step e p q o.
Proof.
  intros I T ET U. pose proof (cpi_case e p q rc o I ET U) as C.
  assert (SI : forall o, silent o -> ev_out e p o) by (intros x S; left; apply (silent_reports _ S)).
  assert (HD : forall p1 q o, silent o -> ev_src e p p1 -> eph q = eph p1 -> rq_event q = rq_event p1 -> ev_step e p q o).
  { intros p1 q0 x S SR E1 E2. constructor; [auto|rewrite E1; intros ev; apply src_kept; auto|rewrite E2]. intros Y. split; [apply (silent_reports _ S)|exact (src_rq _ _ _ SR Y)]. }
  assert (EN : forall ok p1 o1 q o, ended e (state p) ok p1 o1 q o -> state p1 = state p -> idx p1 = idx p -> silent o1 -> ev_src e p p1 -> ev_step e p q o).
  { intros ok p1 o1 q0 x E S1 X1 S SR. constructor; [eapply ended_out_events; eauto|eapply ended_kept; eauto|]. intros Y.
    destruct (ended_rq _ _ _ _ _ _ _ E S Y) as (Y1 & Y2). split; [auto|exact (src_rq _ _ _ SR Y1)]. }
  destruct C as [P1 T1 E | p1 c o P1 G C0 E | p1 c o1 o P1 G C0 F | p1 o SE CS E | p1 o1 o SE CS E | P1 R1 T1 | p1 P1 R1 T1 L E | p1 o P1 R1 T1 L E
       | p1 o P1 R1 E | p1 r o1 o P1 R1 K E | p1 r o1 o P1 R1 K E ].
  - constructor; [apply SI; sil|rewrite E; auto|rewrite E; auto].
  - destruct (pick_src _ _ _ _ _ (get_cmd_picked _ _ _ _ _ G)) as (SR & S1 & X1). apply get_cmd_silent in G.
    rewrite E. apply (HD p1); auto.
  - destruct (pick_src _ _ _ _ _ (get_cmd_picked _ _ _ _ _ G)) as (SR & S1 & X1). apply get_cmd_silent in G. destruct (silent_reports _ G) as (G1 & _). constructor.
    + eapply (finish_out e p _ _ _ _ _ _ _ T F); auto.
    + intros ev EQ. apply (src_kept e p p1); auto. exact (finish_eph _ _ _ _ _ _ _ _ F ev EQ).
    + intros Y. destruct (finish_rq _ _ _ _ _ _ _ _ F G1 Y) as (Y1 & Y2). split; [auto|exact (src_rq _ _ _ SR Y1)].
  - rewrite E. apply (HD p1); auto; [eapply sent_silent; eauto|eapply sent_src; eauto].
  - assert (SR := sent_src e p p1 _ _ I CS). destruct ET as (T1 & T2 & T3). destruct (sent_pre _ _ _ _ _ I SE T3 CS) as (X & _).
    eapply EN; [exact E|apply X|apply X|eapply sent_silent; eauto|exact SR].
  - apply (HD q); auto; [sil|eapply reply_src; eauto].
  - rewrite E. apply (HD p1); auto; [sil|eapply reply_src; eauto].
  - pose proof (reply_pre _ _ _ _ _ I P1 R1) as X. eapply EN; [exact E|apply X|apply X|sil|exact (reply_src e p p1 _ _ I P1 R1)].
  - rewrite E. apply (HD p1); auto; [eapply reply_silent; eauto|eapply reply_src; eauto].
  - assert (SR := reply_src e p p1 _ _ I P1 R1). pose proof (reply_pre _ _ _ _ _ I P1 R1) as X.
    assert (ST : state (stamped e r p1) = state p1 /\ idx (stamped e r p1) = idx p1 /\ eph (stamped e r p1) = eph p1 /\ rq_event (stamped e r p1) = rq_event p1).
    { unfold stamped. destruct r; cbv zeta; destruct (sc_active _); auto. }
    destruct ST as (s1 & s2 & s3 & s4).
    assert (SR2 : ev_src e p (set_phy_state PDone (stamped e r p1))) by (unfold ev_src in *; simpl; rewrite s3, s4; exact SR).
    eapply EN; [exact E|simpl; rewrite s1; apply X|simpl; rewrite s2; apply X|eapply reply_silent; eauto|exact SR2].
  - pose proof (reply_pre _ _ _ _ _ I P1 R1) as X. eapply EN; [exact E|apply X|apply X|eapply reply_silent; eauto|exact (reply_src e p p1 _ _ I P1 R1)].
Qed.

Lemma send_silent e p c p1 ok o : cp_send_command e p c = (p1, ok, o) -> silent o.
Proof.
  unfold cp_send_command, file_tx_command. repeat match goal with |- context [if ?b then _ else _] => destruct b | |- context [match ?x with _ => _ end] => destruct x eqn:? end;
    intros H; inv H; try (sil; fail).
Qed.

Lemma other_events c p q o : is_update c = false -> cp_do c p = Ok (q, o) -> eph q = eph p /\ rq_event q = rq_event p /\ silent o.
Proof.
  destruct c as [e|e c| |enf inst ign other ds| |]; simpl; intros U H; try discriminate.
  - destruct (cp_send_command e p c) as [[p1 ok] o1] eqn:S. simpl in H. injection H as <- <-.
    destruct (send_fx e p c p1 ok o1 S) as [(cq & f & -> & _) N]. split; [reflexivity|]. split; [reflexivity|]. eapply send_silent; eauto.
  - injection H as <- <-. repeat split; constructor.
  - injection H as <- <-. unfold cp_modify_flag. destruct other; [repeat split; constructor|].
    destruct enf, inst, ign; repeat split; constructor.
  - injection H as <- <-. repeat split; constructor.
  - injection H as <- <-. repeat split; constructor.
Qed.

(** * C47 *)
Definition tells (en : cp_entry) (ev : event) : Prop := exists e, ce_call en = Update e /\ told e (ce_pd en) ev.

Lemma kept_told k n i h p : cp_runs k n i h p -> forall ev, eph p = EphEv ev -> exists en, In en h /\ tells en ev.
Proof.
  induction 1 as [p T N|h p c q o R IH CT D]; intros ev E.
  - unfold new_pd in N. destruct (i_scbk i); [|destruct (enforce _); [discriminate|]]; injection N as <-; discriminate.
  - destruct (is_update c) eqn:UC.
    + destruct c; try discriminate. destruct (cp_do_update _ _ _ _ D) as (rc & U).
      pose proof (upd_events e p q rc o (cp_runs_inv _ _ _ _ _ R) (cp_runs_tinv _ _ _ _ _ R) CT U) as [_ K _].
      destruct (K ev E) as [K1|K1]; [destruct (IH ev K1) as (en & A & B); exists en; split; auto; right; auto|].
      exists (mkCe p (Update e) o). split; [left; auto|]. exists e. auto.
    + destruct (other_events c p q o UC D) as (E1 & _). rewrite E1 in E. destruct (IH ev E) as (en & A & B). exists en. split; auto. right. auto.
Qed.

Lemma event_told k n i h p c q o : cp_runs k n i h p -> cp_call_typed c -> cp_do c p = Ok (q, o) ->
  filter is_report o = [] \/
  (exists ev, filter is_report o = [OEv (idx p) ev] /\ exists en, In en (mkCe p c o :: h) /\ tells en ev) \/
  (exists x, filter is_report o = [OEvRaw (idx p) x] /\ state p <> SOnline /\ forall ev, x <> EphEv ev).
Proof.
  intros R CT D. destruct (is_update c) eqn:UC.
  - destruct c; try discriminate. destruct (cp_do_update _ _ _ _ D) as (rc & U).
    pose proof (upd_events e p q rc o (cp_runs_inv _ _ _ _ _ R) (cp_runs_tinv _ _ _ _ _ R) CT U) as [K _ _].
    destruct K as [K|[(ev & K & [T|(RQ & EP)])|(x & K)]]; [auto|right; left|right; left|right; right; eauto].
    + exists ev. split; auto. exists (mkCe p (Update e) o). split; [left; auto|]. exists e. auto.
    + exists ev. split; auto. destruct (kept_told _ _ _ _ _ R ev EP) as (en & A & B). exists en. split; auto. right. auto.
  - left. apply silent_reports. eapply other_events; eauto.
Qed.

(* between two reports there is a reply with an event *)
Lemma reach_step p c q o : cp_reach p -> cp_call_typed c -> cp_do c p = Ok (q, o) -> cp_reach q.
Proof. intros (k & n & i & h & R) T D. exists k, n, i, (mkCe p c o :: h). econstructor; eauto. Qed.

Lemma seg_told p l q : cp_seg p l q -> cp_reach p -> rq_event p = false -> rq_event q = true -> exists en ev, In en l /\ tells en ev.
Proof.
  induction 1 as [|p c q o l r CT D S IH]; intros R A B; [congruence|].
  assert (R2 := reach_step _ _ _ _ R CT D). destruct (is_update c) eqn:UC.
  - destruct c; try discriminate. destruct (cp_do_update _ _ _ _ D) as (rc & U).
    destruct (rq_event q) eqn:Q.
    + pose proof (upd_events e p q rc o (cp_reach_inv _ R) (cp_reach_tinv _ R) CT U) as [_ _ K]. destruct (K Q) as (_ & [K1|(ev & K1)]); [congruence|].
      exists (mkCe p (Update e) o), ev. split; [left; auto|]. exists e. auto.
    + destruct (IH R2) as (en & ev & X & Y); auto. exists en, ev. split; auto. right. auto.
  - destruct (other_events c p q o UC D) as (_ & E & _). destruct (IH R2) as (en & ev & X & Y); [congruence|auto|]. exists en, ev. split; auto. right. auto.
Qed.

(* two calls that report an event: the second one is due to a reply that came after the first call *)
Lemma report_again p c1 p1 o1 l p2 c2 o2 q ev : cp_reach p -> cp_seg p (mkCe p c1 o1 :: l) p2 -> cp_do c1 p = Ok (p1, o1) -> 
  cp_call_typed c2 -> cp_do c2 p2 = Ok (q, o2) -> filter is_report o1 <> [] -> In (OEv (idx p2) ev) o2 -> is_notif ev = false ->
  exists en, In en (l ++ [mkCe p2 c2 o2]) /\ exists ev, tells en ev.
Proof.
  intros R S D1 CT2 D2 F1 IN NT. inversion S as [|a b p1' d f g CT1 D1' S1]; subst. rewrite D1 in D1'. injection D1' as <-.
  assert (R1 := reach_step _ _ _ _ R CT1 D1).
  assert (R2 : cp_reach p2). { clear - S1 R1. induction S1; auto. apply IHS1. eapply reach_step; eauto. }
  assert (RQ : rq_event p1 = false).
  { destruct (rq_event p1) eqn:Q; auto. exfalso. destruct (is_update c1) eqn:UC.
    - destruct c1; try discriminate. destruct (cp_do_update _ _ _ _ D1) as (rc & U).
      pose proof (upd_events e p p1 rc o1 (cp_reach_inv _ R) (cp_reach_tinv _ R) CT1 U) as [_ _ K]. destruct (K Q) as (K2 & _). congruence.
    - apply F1. apply silent_reports. eapply other_events; eauto. }
  destruct (rq_event p2) eqn:Q2.
  - destruct (seg_told _ _ _ S1 R1 RQ Q2) as (en & ev1 & A & B). exists en. split; [apply in_or_app; auto|eauto].
  - exists (mkCe p2 c2 o2). split; [apply in_or_app; right; left; auto|]. destruct (is_update c2) eqn:UC.
    + destruct c2; try discriminate. destruct (cp_do_update _ _ _ _ D2) as (rc & U). exists ev, e. split; auto.
      pose proof (upd_events e p2 q rc o2 (cp_reach_inv _ R2) (cp_reach_tinv _ R2) CT2 U) as [K _ _].
      assert (X : In (OEv (idx p2) ev) (filter is_report o2)) by (apply filter_In; split; auto; simpl; rewrite NT; auto).
      destruct K as [K|[(ev1 & K & [T|(RQ2 & EP)])|(x & K & _)]]; try rewrite K in X; try (destruct X as [X|[]]); try discriminate; try congruence; try contradiction.
      injection X as X. rewrite <- X. exact T.
    + exfalso. destruct (other_events _ _ _ _ UC D2) as (_ & _ & SO). destruct (silent_reports _ SO) as (X & _).
      assert (Y : In (OEv (idx p2) ev) (filter is_report o2)) by (apply filter_In; split; auto; simpl; rewrite NT; auto). rewrite X in Y. destruct Y.
Qed.

(** * C39 *)
Lemma reply_id_heard e p p1 r o : cpi p -> tinv p -> phy_state p = PReplyWait -> reply_case e p p1 r o ->
  reply_id p1 = 0 \/ reply_id p1 = 65 \/ exists l, heard_reply e p l /\ reply_id p1 = getb l 0.
Proof.
  intros I T P H. pose proof (ti_reply _ T P) as R0. destruct H as [k N K S|k N K C|pf r o G S F].
  - left. destruct N as (R & _). rewrite <- R0. exact (f_equal (fun x => reply_id x) R).
  - left. destruct N as (R & _). rewrite <- R0. exact (f_equal (fun x => reply_id x) R).
  - pose proof G as (R & W1 & _).
    assert (E1 : reply_id pf = 0) by (rewrite <- R0; exact (f_equal (fun x => reply_id x) R)).
    assert (I1 : cbinv pf) by (eapply cbinv_rx; eauto; [apply (ci_b p I)|apply W1]).
    destruct (got_full _ _ _ G) as (FU & _). assert (PB : pblen pf <= 256) by (destruct FU as (x & y & _); lia).
    destruct F as [B E|A B C E|A B C D E|k A B C D H1|p2 l r o A B C D H1 H2].
    + left. rewrite E. auto.
    + left. rewrite E. auto.
    + right. left. rewrite E. reflexivity.
    + destruct (cp_decode_packet _ _ _ I1 PB H1) as (_ & _ & _ & _ & _ & [(X & _)|X]); [left; congruence|auto].
    + right. right. exists l.
      destruct (cp_decode_packet _ _ _ I1 PB H1) as (_ & DC & _ & _ & _ & BL & NE & L & _).
      assert (L1 : 1 <= zlen l) by (destruct l; [congruence|]; rewrite zlen_cons; pose proof (zlen_nonneg l); lia).
      split; [|apply (rr_id _ _ _ _ _ _ (decode_response_rel _ _ _ _ _ _ H2 ltac:(lia)))].
      eapply got_says; eauto.
      assert (AD : address pf = address p) by exact (f_equal (fun x => address x) R).
      assert (SQ : seqn pf = seqn p) by exact (f_equal (fun x => seqn x) R).
      rewrite AD in B. rewrite SQ in D. split; [exact A|]. split; [exact B|exact D].
Qed.

(* the application command that a wire command code stands for *)
Definition app_of_code (c : Z) : Prop := In c [104; 105; 106; 107; 110; 100; 101; 102; 103; 117; 128].

Lemma status_code e p st j a v : In (OEv j (ENotif 0 a v)) (notify_command_status e p st) -> app_of_code (cmd_id p) /\ v = b2z st.
Proof.
  unfold notify_command_status, app_cmd_of, notify. cbv zeta.
  unfold CMD_OUT, CMD_LED, CMD_BUZ, CMD_TEXT, CMD_COMSET, CMD_ISTAT, CMD_OSTAT, CMD_LSTAT, CMD_RSTAT, CMD_KEYSET, CMD_MFG, app_of_code. simpl In.
  repeat match goal with |- context [if ?b then _ else _] => destruct b eqn:? end; simpl; intros H; try contradiction; destruct H as [H|[]]; injection H as _ _ <-; split; auto; lia.
Qed.

Lemma fits_code p : reply_fits p = true -> app_of_code (cmd_id p) -> cmd_of_state p -> answers_cmd (cmd_id p) (reply_id p).
Proof.
  intros F A C. unfold app_of_code in A. simpl in A. destruct (state p) eqn:S; unfold cmd_of_state in C; rewrite S in C; cbv iota in C; try lia.
  - unfold reply_fits in F. rewrite S in F. left. lia.
  - destruct (fits_answers p S F) as [X|(X & _)]; auto. lia.
Qed.

Definition no_notif (p : pd) : Prop := forall ev, eph p = EphEv ev -> is_notif ev = false.
Lemma told_no_notif e p ev : told e p ev -> is_notif ev = false.
Proof. intros (l & _ & R). destruct ev; simpl in *; auto; contradiction. Qed.
Lemma src_no_notif e p p1 : ev_src e p p1 -> no_notif p -> no_notif p1.
Proof. intros S N ev E. destruct (src_kept e p p1 ev S E) as [X|X]; [auto|eapply told_no_notif; eauto]. Qed.

Lemma finish_status e cur p ok o0 q rc o x : finish_update e cur p ok o0 = Ok (q, rc, o) -> no_notif p -> is_status x = true -> In x o -> In x o0.
Proof.
  intros FU NN X IN. destruct (finish_events _ _ _ _ _ _ _ _ FU) as (a & cb & b & -> & SA & SB & CC & _).
  assert (SI : forall l, silent l -> ~ In x l) by (intros l S Y; unfold silent in S; rewrite Forall_forall in S; destruct (S x Y); congruence).
  apply in_app_or in IN as [IN|IN]; auto. exfalso. apply in_app_or in IN as [IN|IN]; [eapply (SI a); eauto|].
  apply in_app_or in IN as [IN|IN]; [|eapply (SI b); eauto].
  destruct CC as [-> |(_ & [-> |[(ev & -> & E)|(y & -> & _)]])]; try (destruct IN as [<-|[]]); try (destruct IN; fail).
  - specialize (NN ev E). destruct ev; simpl in *; congruence.
  - discriminate.
Qed.

(* a command was reported as done well by this refresh *)
Definition success (o : list out) : Prop := exists j a, In (OEv j (ENotif 0 a 1)) o.

Lemma ended_status e p ok p1 o1 q o : ended e (state p) ok p1 o1 q o -> silent o1 -> no_notif p1 -> success o ->
  app_of_code (cmd_id p1) /\ (reply_fits p1 = true \/ keyset_acked p1).
Proof.
  intros (p2 & st & o2 & CK & FU) S1 NN (j & a & IN).
  pose proof (check_silent _ _ _ _ _ CK) as S2. destruct (check_checked _ _ _ _ _ CK) as (CH & _).
  assert (SI : forall l, silent l -> ~ In (OEv j (ENotif 0 a 1)) l) by (intros l S Y; unfold silent in S; rewrite Forall_forall in S; destruct (S _ Y); discriminate).
  apply (finish_status _ _ _ _ _ _ _ _ _ FU) in IN; auto; [|intros ev; destruct (check_eph _ _ _ CH) as (-> & _); apply NN].
  apply in_app_or in IN as [IN|IN]; [destruct (SI _ S1 IN)|]. apply in_app_or in IN as [IN|IN]; [destruct (SI _ S2 IN)|].
  apply status_code in IN as (IN & V). assert (ST : st = true) by (destruct st; auto; discriminate).
  assert (CC : cmd_id p2 = cmd_id p1).
  { change (cmd_id (state_reset false p2) = cmd_id p1). destruct CH as [_ -> |p2' K TT ->]; auto. destruct TT as [U -> |ty n k d U E TA ->]; auto. }
  rewrite <- CC. split; auto. rewrite ST in CH. remember true as bb eqn:BB in CH. destruct CH as [N E |p2' K TT E]; auto.
Qed.

Lemma upd_success e p q rc o : cpi p -> tinv p -> no_notif p -> env_typed e -> state_update e p = Ok (q, rc, o) -> success o ->
  sending e p \/ (phy_state p = PReplyWait /\ app_of_code (cmd_id p) /\ exists l, heard_reply e p l /\ answers_cmd (cmd_id p) (getb l 0)).
Proof.
  intros I T NN ET U SU. pose proof (cpi_case e p q rc o I ET U) as C.
  assert (SI : forall o, silent o -> ~ success o) by (intros l S (j & a & Y); unfold silent in S; rewrite Forall_forall in S; destruct (S _ Y); discriminate).
  assert (G : forall ok p0 p1 r o1 q o, phy_state p = PReplyWait -> reply_case e p p0 r o1 -> cmd_id p1 = cmd_id p0 -> reply_id p1 = reply_id p0 -> state p1 = state p0 -> eph p1 = eph p0 ->
      ended e (state p) ok p1 o1 q o -> success o ->
      app_of_code (cmd_id p) /\ exists l, heard_reply e p l /\ answers_cmd (cmd_id p) (getb l 0)).
  { intros ok p0 p1 r o1 q0 o0 P R E1 E2 E3 E4 E S. pose proof (reply_src e p p0 _ _ I P R) as SR.
    assert (NN1 : no_notif p1) by (intros ev; rewrite E4; apply (src_no_notif e p p0); auto).
    destruct (ended_status _ _ _ _ _ _ _ E (reply_silent _ _ _ _ _ I P R) NN1 S) as (AC & FT).
    destruct (reply_phy e p p0 r o1 I P R) as (_ & _ & CI & _). rewrite <- CI, <- E1. split; auto.
    destruct (reply_id_heard e p p0 r o1 I T P R) as [Z|[Z|(l & HE & Z)]]; rewrite <- E2 in Z.
    - exfalso. destruct FT as [FT|(_ & _ & FT)]; [|lia]. unfold reply_fits, online_fits in FT. rewrite Z in FT. destruct (state p1); discriminate.
    - exfalso. destruct FT as [FT|(_ & _ & FT)]; [|lia]. unfold reply_fits, online_fits in FT. rewrite Z in FT. destruct (state p1); discriminate.
    - exists l. split; auto. rewrite <- Z. destruct FT as [FT|(_ & _ & FT)]; [|left; auto]. apply fits_code; auto.
      pose proof (ci_cmd p I ltac:(unfold phy_running; rewrite P; auto)) as CM. unfold cmd_of_state in *. rewrite E3, E1, CI. rewrite (px_state _ _ (reply_pre _ _ _ _ _ I P R)). exact CM. }
  destruct C as [P1 T1 E | p1 c o P1 G1 C0 E | p1 c o1 o P1 G1 C0 F | p1 o SE CS E | p1 o1 o SE CS E | P1 R1 T1 | p1 P1 R1 T1 L E | p1 o P1 R1 T1 L E
       | p1 o P1 R1 E | p1 r o1 o P1 R1 K E | p1 r o1 o P1 R1 K E ]; auto.
  - destruct SU as (? & ? & []).
  - exfalso. eapply SI; eauto. eapply get_cmd_silent; eauto.
  - exfalso. destruct SU as (j & a & SU). destruct (pick_src _ _ _ _ _ (get_cmd_picked _ _ _ _ _ G1)) as (SR & _).
    apply (finish_status _ _ _ _ _ _ _ _ _ F) in SU; auto; [|exact (src_no_notif e p p1 SR NN)]. apply (SI o1); [eapply get_cmd_silent; eauto|exists j, a; auto].
  - destruct SU as (? & ? & []).
  - destruct SU as (? & ? & []).
  - right. split; auto. eapply (G _ p1 (set_phy_state PErr p1)); eauto.
  - exfalso. apply (SI o); auto. eapply reply_silent; eauto.
  - right. split; auto. destruct (stamped_sc e r p1) as (_ & _ & s3 & s4 & _).
    eapply (G _ p1 (set_phy_state PDone (stamped e r p1))); eauto; simpl; unfold stamped; destruct r; cbv zeta; destruct (sc_active _); reflexivity.
  - right. split; auto. eapply (G _ p1 (set_phy_state PErr p1)); eauto.
Qed.

Lemma runs_no_notif k n i h p : cp_runs k n i h p -> no_notif p.
Proof. intros R ev E. destruct (kept_told _ _ _ _ _ R ev E) as (en & _ & (e & _ & T)). eapply told_no_notif; eauto. Qed.

(* the configured key changes *)
Lemma sc_setup_key r p : has_scbk (fl p) = true -> scbk (sc (sc_setup r p)) = scbk (sc p).
Proof. intros H. unfold sc_setup. rewrite H, Bool.orb_true_r. destruct (pd_mode (fl p)); reflexivity. Qed.

Lemma upd_key e p q rc o : cpi p -> tinv p -> env_typed e -> state_update e p = Ok (q, rc, o) -> has_scbk (fl p) = true -> scbk (sc q) <> scbk (sc p) ->
  state p = SOnline /\ cmd_id p = 117 /\ (exists ty n k, eph p = EphCmd (CKeyset ty n k) /\ take_arr k 16 = Ok (scbk (sc q))) /\
  (sending e p \/ phy_state p = PReplyWait /\ exists l, heard_reply e p l /\ getb l 0 = 64).
Proof.
  intros I T ET U HK NE. destruct (upd_summary e p q rc o I ET U) as [H | p1 RE X PI FP F | p1 p3 ok st RE RU X C FP F].
  - destruct NE. destruct H. apply (kcore_fields _ _ hd_key).
  - destruct NE. rewrite <- (px_scbk _ _ X). pose proof (fr_sc _ _ _ _ F) as M. unfold sc_move in M. match type of M with (if ?b then _ else _) => destruct b end; rewrite M; auto.
    apply sc_setup_key. rewrite (px_has _ _ X). auto.
  - assert (M : scbk (sc q) = scbk (sc p3)).
    { pose proof (fr_sc _ _ _ _ F) as M. unfold sc_move in M. match type of M with (if ?b then _ else _) => destruct b end; rewrite M; auto. apply sc_setup_key.
      transitivity (has_scbk (fl p1)); [|rewrite (px_has _ _ X); auto].
      destruct C as [_ -> |p2' K TT ->]; auto. destruct TT as [? -> |? ? ? ? ? ? ? ->]; auto. }
    destruct C as [N E|p2 K TT E].
    { exfalso. apply NE. rewrite M, E. apply X. }
    destruct TT as [U1 E2|ty n k d U1 E1 TA E2].
    { exfalso. apply NE. rewrite M, E, E2. apply X. }
    destruct K as (K1 & K2 & K3).
    assert (SQ : scbk (sc q) = d) by (rewrite M, E, E2; reflexivity).
    split; [rewrite <- (px_state _ _ X); auto|].
    assert (GR : forall p0 r o0, phy_state p = PReplyWait -> reply_case e p p0 r o0 -> cmd_id p1 = cmd_id p0 -> eph p1 = eph p0 -> reply_id p1 = reply_id p0 ->
      cmd_id p = 117 /\ (exists ty n k, eph p = EphCmd (CKeyset ty n k) /\ take_arr k 16 = Ok (scbk (sc q))) /\
      (sending e p \/ phy_state p = PReplyWait /\ exists l, heard_reply e p l /\ getb l 0 = 64)).
    { intros p0 r o0 P R C1 C2 C3. destruct (reply_phy e p p0 r o0 I P R) as (_ & _ & CI & _). split; [congruence|]. split.
      - exists ty, n, k. rewrite SQ. split; auto. destruct (reply_eph e p p0 r o0 I P R) as [(_ & [Y|(c & Y)])|(_ & _ & ev & Y & _)]; congruence.
      - right. split; auto. destruct (reply_id_heard e p p0 r o0 I T P R) as [Y|[Y|(l & HE & Y)]]; [congruence|congruence|]. exists l. split; auto. congruence. }
    destruct RE as [PI _ _ _ _ _ _|o0 SN CS|PR RC TO RT|r o0 PR RC KK|r o0 p0 PR RC EE KK].
    + unfold phy_running in RU. rewrite PI in RU. discriminate.
    + destruct (sent_cmdq e p p1 false o0 I CS) as (_ & S2 & S3). split; [congruence|]. split; [|auto]. exists ty, n, k. rewrite SQ. split; congruence.
    + eapply GR; eauto.
    + eapply GR; eauto.
    + eapply (GR p0); eauto; rewrite EE; unfold stamped; destruct r; cbv zeta; destruct (sc_active _); reflexivity.
Qed.
