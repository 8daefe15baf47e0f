(** How often the panel polls. *)
From Verif Require Import Base ListLemmas Crc SpecCrc CrcProofs CrcBurst Aes AesProofs Rb RbProofs
  Types Sc ScProofs Phy PhyCheck File Pd Cp SpecRx SpecFrame SpecSec SpecSession RxProofs PdRx PdCore PhyTx PdTx PdReply
  PdStep PdRun PdWire PdFwd PdSec PdHist2 WireSec CpCtx SpecPd SpecCp SpecCpRun CpTx CpRx CpStep CpInv CpEdge CpFacts CpSum CpWire CpHist CpTime CpTotal
  PdAll Talk2 SpecSay SpecTalk SpecPoll.
From Coq Require Import ZifyBool ZifyNat.
Ltac Zify.zify_post_hook ::= Z.div_mod_to_equations.
Local Opaque aes_ecb_encrypt aes_cbc_encrypt aes_cbc_decrypt mac_of RB_SIZE osdp_mac enc1 cap_entries osdp_encrypt encrypt_data.

(** * The code of a transmitted packet *)
Lemma nth_cut k i (w : list Z) : nth i (firstn k w) 0 = if (i <? k)%nat then nth i w 0 else 0.
Proof.
  destruct (i <? k)%nat eqn:L.
  - rewrite <- (firstn_skipn k w) at 2. destruct (Nat.lt_ge_cases i (length (firstn k w))) as [H|H]; [rewrite app_nth1; auto|].
    rewrite nth_overflow by auto. rewrite firstn_length in H. rewrite nth_overflow; auto. rewrite app_length, firstn_length, skipn_length. lia.
  - apply nth_overflow. rewrite firstn_length. lia.
Qed.

Lemma cut_code k w : cmd_code (firstn k w) = 96 -> cmd_code w = 96.
Proof.
  unfold cmd_code, f_scb. rewrite !nth_cut. destruct (5 <? k)%nat eqn:K5.
  - replace (4 <? k)%nat with true by lia. intros H. destruct (_ <? k)%nat in H; [exact H|discriminate].
  - intros H. exfalso. match type of H with context [5 + if ?b then 0 else 0] => replace (5 + if b then 0 else 0) with 5 in H by (destruct b; reflexivity) end.
    change (Z.to_nat 5) with 5%nat in H. rewrite K5 in H. discriminate.
Qed.

Lemma frame_code p code data w n : 0 <= n <= 3 -> n = seq_next (seqn p) -> cmd_frame p code data w -> cmd_code w = code.
Proof.
  intros R N F. unfold cmd_frame in F. rewrite <- N in F. clear N.
  assert (n = 0 \/ n = 1 \/ n = 2 \/ n = 3) as [-> | [-> | [-> | ->]]] by lia;
  destruct (sc_active (fl p)); [subst w; reflexivity| |subst w; reflexivity| |subst w; reflexivity| |subst w; reflexivity|];
  (destruct (in_sc_handshake false (cmd_id p)); [destruct F as (ty & b & _ & _ & ->); reflexivity|subst w; reflexivity]).
Qed.

Lemma poll_id e p w : cpi p -> tx_is e p (255 :: w) -> cmd_code w = 96 -> cmd_id p = 96.
Proof.
  intros I [(v & k & code & data & E & K & _ & _ & _ & _ & _ & _ & _ & C & _ & F)] H.
  replace (Z.to_nat k) with (S (Z.to_nat (k - 1))) in E by lia. cbn [firstn] in E. injection E as E. subst w. apply cut_code in H.
  rewrite (frame_code p code data v _ (seq_next_range _ (cv_seq p (ci_b p I))) eq_refl F) in H.
  destruct C as [C|[_ C]]; [congruence|]. rewrite C in H. discriminate.
Qed.

(** * Two polls *)
(* a poll was sent at time a; what the entry remembers of it.  b: a time that no refresh exceeds *)
Definition since (a b : Z) (p : pd) : Prop :=
  match phy_state p with
  | PReplyWait | PWait => if cmd_id p =? 96 then a <= phy_tstamp p else a <= tstamp p
  | PSend => if cmd_id p =? 96 then a + 50 < b /\ a <= tstamp p else a <= tstamp p
  | _ => a <= tstamp p
  end.

Lemma plain_choice e p q c o : no_transfer p -> file_tx_get_command e p = (q, c, o) -> c = 0 /\ q = p /\ o = [].
Proof.
  unfold no_transfer, file_tx_get_command. destruct (file p) as [f|]; [|intros _ H; inv H; auto].
  intros [F|F] H; rewrite F in H; inv H; auto.
Qed.

Lemma not_asked e p q c o : ~ wants_polls p -> file_tx_get_command e p = (q, c, o) -> c <> 96 /\ exists f, q = set_file f p.
Proof.
  intros N H. destruct (file_tx_keep e p q c o H) as [K _]. split; [|exact K]. intros ->.
  unfold file_tx_get_command in H. destruct (file p) as [f|] eqn:FP; [|discriminate].
  assert (G : f_state f <> FIdle -> f_state f <> FDone -> forall b : bool, (if b then let (p1, o) := file_tx_abort p in (p1, 162, o)
                 else if negb (f_wait f =? 0) && (e_now e - f_tstamp f <? f_wait f) then (p, if Z.testbit (f_flags f) FB_EXCLUSIVE then -1 else 0, [])
                 else if Z.testbit (f_flags f) FB_POLL then (p, 96, []) else (p, 124, [])) = (q, 96, o) -> False).
  { intros S1 S2 [|] X.
    - destruct (file_tx_abort p). discriminate.
    - destruct (negb (f_wait f =? 0) && _); [destruct (Z.testbit _ _) in X; discriminate|]. destruct (Z.testbit (f_flags f) FB_POLL) eqn:B; [|discriminate].
      apply N. exists f. auto. }
  destruct (f_state f) eqn:S; try discriminate; eapply G; try exact H; discriminate.
Qed.

Lemma plain_picked e p p1 c o : ~ wants_polls p -> state_get_cmd e p = Ok (p1, c, o) ->
  (c = 96 /\ tstamp p1 = e_now e /\ 50 < e_now e - tstamp p) \/ (c <> 96 /\ tstamp p1 = tstamp p).
Proof.
  intros NT H. unfold state_get_cmd in H. destruct (state p) eqn:S; try (injection H as <- <- _; right; split; [discriminate|reflexivity]).
  unfold get_online_command in H. destruct (cmdq p) as [|k cq] eqn:CQ.
  - destruct (file_tx_get_command e p) as [[p2 c2] o2] eqn:FT. apply (not_asked e p _ _ _ NT) in FT as (NC & f & ->).
    destruct (c2 =? 0); cbn [negb] in H; [|injection H as <- <- _; right; split; [exact NC|reflexivity]].
    unfold POLL_TIMEOUT in H. change (tstamp (set_file f p)) with (tstamp p) in H. destruct (e_now e - tstamp p >? 50) eqn:T; injection H as <- <- _.
    + left. split; [reflexivity|]. split; [reflexivity|lia].
    + right. split; [discriminate|reflexivity].
  - assert (PK : picked e p p1 c o) by (apply get_cmd_picked; unfold state_get_cmd, get_online_command; rewrite S, CQ; exact H).
    destruct PK as [k0 cq0 _ Q E W _|? _ Q|? _ Q|? _ Q|X _ _]; try congruence; [|rewrite S in X; destruct X].
    right. rewrite E. split; [|reflexivity]. intros ->. destruct k0; simpl in W; try discriminate; try tauto;
      repeat match type of W with _ = if ?b then _ else _ => destruct b end; discriminate.
Qed.

Lemma poll_online p : cpi p -> phy_running p = true -> cmd_id p = 96 -> state p = SOnline.
Proof.
  intros I R C. pose proof (ci_cmd p I R) as X. unfold cmd_of_state in X. destruct (state p); auto; try (rewrite C in X; try discriminate; lia); destruct X.
Qed.

Lemma reply_time e p q r o : cbinv p -> reply_case e p q r o -> tstamp q = tstamp p \/ tstamp q = e_now e.
Proof.
  intros I H. destruct H as [k N K S|k N K C|p1 r o G S F].
  - apply N.
  - apply N.
  - pose proof G as (R & W & TS & _ & PL & _). assert (I1 : cbinv p1) by (eapply cbinv_rx; eauto; apply W).
    destruct F as [B ->|A B C ->|A B C D ->|k A B C D H|p2 l r o A B C D H1 H2]; auto.
    + destruct (cp_decode_packet _ _ _ I1 ltac:(destruct (got_full _ _ _ G) as ((x & y & _) & _); lia) H) as (_ & DC & _).
      assert (X : tstamp q = tstamp p1) by exact (f_equal (fun x => tstamp x) DC). rewrite X. exact TS.
    + destruct (cp_decode_packet _ _ _ I1 ltac:(destruct (got_full _ _ _ G) as ((x & y & _) & _); lia) H1) as (_ & DC & _ & _ & _ & BL & NE & L & RI & EP & SA).
      assert (L1 : 1 <= zlen l) by (destruct l; [congruence|]; rewrite zlen_cons; pose proof (zlen_nonneg l); lia).
      assert (X : tstamp p2 = tstamp p1) by exact (f_equal (fun x => tstamp x) DC).
      assert (Y : tstamp q = tstamp p2) by exact (f_equal (fun x => tstamp x) (rr_core _ _ _ _ _ _ (decode_response_rel _ _ _ _ _ _ H2 L1))).
      rewrite Y, X. exact TS.
Qed.

Lemma reply_stamp e p p1 r o : cpi p -> phy_state p = PReplyWait -> reply_case e p p1 r o ->
  (tstamp p1 = tstamp p \/ tstamp p1 = e_now e) /\ phy_tstamp p1 = phy_tstamp p /\ cmd_id p1 = cmd_id p /\ phy_state p1 = phy_state p.
Proof.
  intros C P RC. destruct (ci_rx _ C P) as (W & Y & Q). pose proof (ci_b _ C) as I. split; [eapply reply_time; eauto|].
  apply reply_case_fx in RC; auto. destruct RC as [c1 _ _ _ _ _ _ _ _ _]. repeat split; [exact (f_equal (fun x => phy_tstamp x) c1)|exact (f_equal (fun x => cmd_id x) c1)|exact (f_equal (fun x => phy_state x) c1)].
Qed.

Lemma sent_stamp e p p1 ok o : cpi p -> cmd_sent e (set_phy_state PSend p) p1 ok o -> tstamp p1 = tstamp p /\ cmd_id p1 = cmd_id p.
Proof.
  intros C CS. assert (I1 : cbinv (set_phy_state PSend p)) by (apply cbinv_phy; apply C).
  apply cmd_sent_fx in CS; auto. destruct CS as [s1 _ _ _ _]. split; [exact (f_equal (fun x => tstamp x) s1)|exact (f_equal (fun x => cmd_id x) s1)].
Qed.

Lemma move_stamp e p q : time_move e p q -> tstamp q = tstamp p \/ tstamp q = e_now e.
Proof. unfold time_move. destruct (_ && _); tauto. Qed.

Lemma reason_stamp e p p1 ok : cpi p -> reason e p p1 ok -> phy_running p = true ->
  cmd_id p1 = cmd_id p /\ (tstamp p1 = tstamp p \/ tstamp p1 = e_now e) /\ (ok = true -> ign_unsol (fl p) = false -> tstamp p1 = e_now e).
Proof.
  intros I R RU. destruct R as [P _ _ _ _ _ _|o S CS|P RC _ _|r o P RC _|r o p0 P RC E K].
  - unfold phy_running in RU. rewrite P in RU. discriminate.
  - destruct (sent_stamp e p p1 _ _ I CS) as [X Y]. split; [auto|]. split; [auto|discriminate].
  - destruct (reply_stamp e p p1 _ _ I P RC) as (X & _ & Y & _). split; [auto|]. split; [auto|discriminate].
  - destruct (reply_stamp e p p1 _ _ I P RC) as (X & _ & Y & _). split; [auto|]. split; [auto|discriminate].
  - destruct (reply_stamp e p p0 _ _ I P RC) as (X & _ & Y & _). subst p1. unfold stamped.
    destruct K as [->|(-> & _ & UN)]; cbv zeta; (destruct (sc_active _); simpl; (split; [auto|]; split; [auto|]); intros _ Z; congruence).
Qed.

(* one refresh *)
Lemma since_step a b e p q rc o : cpi p -> tinv p -> env_typed e -> a <= e_now e <= b -> plainly p -> since a b p ->
  state_update e p = Ok (q, rc, o) -> since a b q.
Proof.
  intros I TI T R [UN NT] H U.
  assert (EN : phy_state q = PIdle -> since a b q).
  { intros PQ. unfold since. rewrite PQ. destruct (upd_summary e p q rc o I T U) as [X|p1 RE _ PI _ F|p1 p3 ok st RE RU X CK _ F].
    - pose proof (hd_run _ _ _ X) as Y. unfold phy_running in Y. rewrite PQ in Y. discriminate.
    - destruct (idle_reason e p p1 true RE PI) as (_ & TS & _). pose proof (move_stamp _ _ _ (fr_time _ _ _ _ F)) as M.
      unfold since in H. rewrite PI in H. rewrite TS in M. lia.
    - destruct (reason_stamp e p p1 ok I RE RU) as (CE & T1 & T2).
      assert (T3 : tstamp p3 = tstamp p1) by (destruct CK as [_ ->|p2 _ KT ->]; [reflexivity|destruct KT as [_ ->|? ? ? ? _ _ _ ->]; reflexivity]).
      pose proof (move_stamp _ _ _ (fr_time _ _ _ _ F)) as M. rewrite T3 in M.
      destruct (cmd_id p =? 96) eqn:C.
      + apply Z.eqb_eq in C. destruct ok; [specialize (T2 eq_refl UN); lia|].
        pose proof (poll_online p I RU C) as SO.
        assert (RR : rq_restart p3 = false).
        { destruct CK as [_ ->|p2 (_ & Z & _) _ _]; [exact (px_rq _ _ X)|]. rewrite CE, C in Z. discriminate. }
        pose proof (fr_edge _ _ _ _ F) as ED. pose proof (fr_time _ _ _ _ F) as TM. unfold edge_ok, time_move in *.
        rewrite (checked_state _ _ _ CK), (px_state _ _ X), SO in *. cbn [andb] in ED.
        destruct (state q); try tauto.
        * destruct ED as (_ & [Y|(Y & _)]); congruence.
        * destruct ED as (Y & _); discriminate.
        * simpl in TM. lia.
      + assert (A : a <= tstamp p).
        { unfold since in H. rewrite C in H. destruct (phy_state p); auto. }
        lia. }
  destruct (upd_phases e p q rc o I T U) as [[G RQ]|PQ]; [|exact (EN PQ)].
  destruct G as [P Tm E0 _|p1 c P K C0 E NX|p1 S CS E|P RC Tm _|p1 P RC Tm L E _|p1 P RC E NX].
  - subst q. exact H.
  - pose proof (cpi_case e p q rc o I T U) as UC. clear K E.
    destruct UC as [? ? ?|p2 c2 o2 P2 G2 C2 ->|? ? ? ? P2 G2 C2 F2|? ? S ? ?|? ? ? S ? ?|P2|? P2|? ? P2|? ? P2|? ? ? ? P2|? ? ? ? P2]; try congruence.
    + unfold since in *. rewrite P in H. cbn [phy_state set_phy_state].
      change (cmd_id (set_phy_state PSend (set_cmd_id c2 p2))) with c2. change (tstamp (set_phy_state PSend (set_cmd_id c2 p2))) with (tstamp p2).
      destruct (plain_picked e p p2 c2 _ NT G2) as [(-> & X & Y)|(X & Y)]; [simpl; lia|]. replace (c2 =? 96) with false by lia. lia.
    + apply EN. destruct I as [i1 i2 i3 i4 i5 i6 i7 i8]. destruct (get_cmd_fx e p _ _ _ G2 i1) as [g1 g2 g3 g4 g5 g6 g7 g8 g9 g10].
      rewrite <- g4 in F2. match type of F2 with finish_update _ _ ?x _ _ = _ => change (state p0) with (state x) in F2 end.
      apply (finish_idle _ _ _ _ _ _ _ F2); [constructor; simpl; [cbgi g1 | congruence | rewrite g3; exact i4 | rewrite g4, g6; auto | congruence]|apply T].
    + destruct S as [S|[S _]]; congruence.
    + destruct S as [S|[S _]]; congruence.
  - destruct (sent_stamp e p p1 _ _ I CS) as [X Y]. subst q. unfold since in *. simpl. rewrite X, Y.
    destruct (cmd_id p =? 96); [lia|]. destruct S as [S|[S _]]; rewrite S in H; exact H.
  - destruct (reply_stamp e p q _ _ I P RC) as (X & Y & Z & W). unfold since in *. rewrite W, P, Y, Z in *. destruct (cmd_id p =? 96); lia.
  - destruct (reply_stamp e p p1 _ _ I P RC) as (X & Y & Z & W). subst q. unfold since in *. simpl. rewrite P, Z in *. destruct (cmd_id p =? 96); lia.
  - destruct (reply_stamp e p p1 _ _ I P RC) as (X & Y & Z & W). subst q. unfold since in *. simpl. rewrite P, Z in *. destruct (cmd_id p =? 96); lia.
Qed.

Lemma seg_since a b p l q : cp_seg p l q -> cpi p -> tinv p -> since a b p -> Forall (timed a b) l -> Forall (fun en => plainly (ce_pd en)) l -> since a b q.
Proof.
  induction 1 as [|p c q o l r T D S IH]; intros I TI H F1 F2; auto.
  inversion F1 as [|? ? A1 A2]; subst. inversion F2 as [|? ? B1 B2]; subst. simpl in B1.
  assert (IQ : cpi q) by (eapply cp_do_inv; eauto).
  assert (TQ : tinv q) by (apply (seg_tinv p [mkCe p c o] q); auto; econstructor; eauto; constructor).
  apply IH; auto. destruct (is_update c) eqn:UC.
  - destruct c as [e| | | | |]; try discriminate. destruct (cp_do_update e p q o D) as (rc & U).
    exact (since_step a b e p q rc o I TI T (A1 e eq_refl) B1 H U).
  - destruct (other_eq c p q o UC D) as [E _]. destruct (ucore_fields _ _ E) as (u1 & u2 & u3 & u4 & u5 & u6 & u7 & u8 & u9 & u10 & u11 & _).
    unfold since in *. rewrite u2, u6, u7, u11. exact H.
Qed.

(* the refresh that sends a poll *)
Lemma poll_sent e p q rc o : cpi p -> env_typed e -> state_update e p = Ok (q, rc, o) -> polls o -> sending e p /\ cmd_id p = 96.
Proof.
  intros I T U (w & IN & C). destruct (upd_tx e p q rc o _ I T U IN) as (S & _ & TX). split; [exact S|]. eapply poll_id; eauto.
Qed.

Lemma polled_since b e p q rc o : cpi p -> env_typed e -> e_now e <= b -> state_update e p = Ok (q, rc, o) -> polls o -> since (e_now e) b q.
Proof.
  intros I T L U PO. destruct (poll_sent e p q rc o I T U PO) as [S C].
  assert (RU : phy_running p = true) by (unfold phy_running; destruct S as [S|[S _]]; rewrite S; reflexivity).
  assert (NI : phy_state p <> PIdle) by (destruct S as [S|[S _]]; rewrite S; discriminate).
  assert (NR : phy_state p <> PReplyWait) by (destruct S as [S|[S _]]; rewrite S; discriminate).
  destruct (upd_phases e p q rc o I T U) as [[G _]|PQ].
  - destruct G as [P Tm E0 EO|p1 c P K C0 E NX|p1 _ CS E|P|p1 P|p1 P]; try congruence.
    + subst o. destruct PO as (w & [] & _).
    + destruct (sent_stamp e p p1 _ _ I CS) as [X Y]. subst q. unfold since. simpl. rewrite Y, C. simpl. lia.
  - unfold since. rewrite PQ. destruct (upd_summary e p q rc o I T U) as [X|p1 RE _ PI _ F|p1 p3 ok st RE _ X CK _ F].
    + pose proof (hd_run _ _ _ X) as Y. unfold phy_running in Y. rewrite PQ in Y. discriminate.
    + congruence.
    + pose proof (poll_online p I RU C) as SO. destruct RE as [P _ _ _ _ _ _|ou _ CS|P _ _ _|r ou P _ _|r ou p0 P _ _ _]; try congruence.
      assert (RR : rq_restart p3 = false).
      { destruct CK as [_ ->|p2 (_ & Z & _) _ _]; [exact (px_rq _ _ X)|]. destruct (sent_stamp e p p1 _ _ I CS) as [_ Y]. rewrite Y, C in Z. discriminate. }
      pose proof (fr_edge _ _ _ _ F) as ED. pose proof (fr_time _ _ _ _ F) as TM. unfold edge_ok, time_move in *.
      rewrite (checked_state _ _ _ CK), (px_state _ _ X), SO in *. cbn [andb] in ED.
      destruct (state q); try tauto.
      * destruct ED as (_ & [Y|(Y & _)]); congruence.
      * destruct ED as (Y & _); discriminate.
      * simpl in TM. lia.
Qed.

(* a poll sent at a is followed by another one only after 50 ms *)
Lemma since_poll a e p q rc o : cpi p -> tinv p -> env_typed e -> since a (e_now e) p -> state_update e p = Ok (q, rc, o) -> polls o -> a + 50 < e_now e.
Proof.
  intros I TI T H U PO. destruct (poll_sent e p q rc o I T U PO) as [S C]. unfold since in H.
  destruct S as [S|[S W]]; rewrite S, C in H; simpl in H; [lia|]. rewrite (ti_retry p TI S) in W. lia.
Qed.

(** * A poll is due *)
Lemma upd_stamp e p q rc o : cpi p -> env_typed e -> state_update e p = Ok (q, rc, o) -> tstamp q = tstamp p \/ tstamp q = e_now e.
Proof.
  intros I T U. destruct (upd_phases e p q rc o I T U) as [[G _]|PQ].
  - destruct G as [P Tm E0 EO|p1 c P K C0 E NX|p1 _ CS E|P RC Tm _|p1 P RC Tm L E _|p1 P RC E NX].
    + subst q. auto.
    + subst q. destruct K as [k cq K1 K2 E1 K3 K4|f K1 K2 E1 K3|f K1 K2 E1 K3 K4|f K1 K2 E1 K3 K4|K1 E1 K2]; subst p1; simpl; auto.
    + destruct (sent_stamp e p p1 _ _ I CS) as [X Y]. subst q. simpl. auto.
    + apply (reply_stamp e p q _ _ I P RC).
    + subst q. apply (reply_stamp e p p1 _ _ I P RC).
    + subst q. apply (reply_stamp e p p1 _ _ I P RC).
  - destruct (upd_summary e p q rc o I T U) as [X|p1 RE _ PI _ F|p1 p3 ok st RE RU X CK _ F].
    + pose proof (hd_run _ _ _ X) as Y. unfold phy_running in Y. rewrite PQ in Y. discriminate.
    + destruct (idle_reason e p p1 true RE PI) as (_ & TS & _). rewrite <- TS. exact (move_stamp _ _ _ (fr_time _ _ _ _ F)).
    + destruct (reason_stamp e p p1 ok I RE RU) as (_ & T1 & _).
      assert (T3 : tstamp p3 = tstamp p1) by (destruct CK as [_ ->|p2 _ KT ->]; [reflexivity|destruct KT as [_ ->|? ? ? ? _ _ _ ->]; reflexivity]).
      pose proof (move_stamp _ _ _ (fr_time _ _ _ _ F)) as M. rewrite T3 in M. destruct M as [M|M]; [rewrite M; exact T1|auto].
Qed.

Lemma runs_stamp t k n i h p : 0 <= t -> cp_runs k n i h p -> Forall (fun en => forall x, ce_call en = Update x -> e_now x <= t) h -> tstamp p <= t.
Proof.
  intros T0 R. induction R as [p T N|h p c q o R IH T D]; intros F.
  - unfold new_pd in N. cbv zeta in N. destruct (i_scbk i); [|destruct (enforce _) in N; [discriminate|]]; injection N as <-; simpl; lia.
  - inversion F as [|? ? F1 F2]; subst. specialize (IH F2). pose proof (cp_runs_inv _ _ _ _ _ R) as I. destruct (is_update c) eqn:UC.
    + destruct c as [e| | | | |]; try discriminate. destruct (cp_do_update e p q o D) as (rc & U).
      pose proof (F1 e eq_refl). destruct (upd_stamp e p q rc o I T U); lia.
    + destruct (other_eq c p q o UC D) as [E _]. destruct (ucore_fields _ _ E) as (u1 & u2 & u3 & u4 & u5 & u6 & _). lia.
Qed.

Lemma rest_stamp p l q : cp_seg p l q -> cpi p -> Forall (fun en => rests (ce_pd en)) l -> rests q -> tstamp q = tstamp p.
Proof.
  induction 1 as [|p c q o l r T D S IH]; intros I F RR; auto.
  inversion F as [|? ? [F1 F1'] F2]; subst. simpl in F1, F1'. assert (IQ : cpi q) by (eapply cp_do_inv; eauto). rewrite (IH IQ F2 RR).
  assert (RQ : rests q). { inversion S; subst; [exact RR|]. inversion F2; subst. auto. }
  destruct RQ as [Q1 Q2]. destruct (is_update c) eqn:UC.
  - destruct c as [e| | | | |]; try discriminate. destruct (cp_do_update e p q o D) as (rc & U).
    destruct (upd_summary e p q rc o I T U) as [X|p1 RE X PI _ FR|p1 p3 ok st RE RU X CK _ FR].
    + pose proof (hd_run _ _ _ X) as Y. unfold phy_running in Y. rewrite Q2 in Y. discriminate.
    + destruct (idle_reason e p p1 true RE PI) as (_ & TS & _). pose proof (fr_time _ _ _ _ FR) as TM. unfold time_move in TM. rewrite Q1 in TM. simpl in TM. destruct TM; congruence.
    + unfold phy_running in RU. rewrite F1' in RU. discriminate.
  - destruct (other_eq c p q o UC D) as [E _]. destruct (ucore_fields _ _ E) as (u1 & u2 & u3 & u4 & u5 & u6 & _). exact u6.
Qed.

Lemma poll_code x p : -1 <= seqn p <= 3 -> cmd_id p = 96 -> sc_active (fl x) = sc_active (fl p) -> cmd_code (wire_of x (cmd_body p [96] None)) = 96.
Proof.
  intros R C A. destruct (cp_ctl_eq p R) as [C1 C2]. pose proof (seq_next_range (seqn p) R) as Q.
  unfold wire_of, macced, cmd_body. rewrite C, A, C2, C1. change (in_sc_handshake false 96) with false. cbv iota.
  assert (seq_next (seqn p) = 0 \/ seq_next (seqn p) = 1 \/ seq_next (seqn p) = 2 \/ seq_next (seqn p) = 3) as [-> | [-> | [-> | ->]]] by lia;
  destruct (sc_active (fl p)); reflexivity.
Qed.

Lemma poll_goes e p : cpi p -> env_typed e -> phy_state p = PSend -> cmd_id p = 96 -> 69 <= tx_buf_size p -> 256 <= e_tx e ->
  exists q w, state_update e p = Ok (q, CInprog, [OTx (255 :: w)]) /\ cmd_code w = 96 /\ phy_state q = PReplyWait.
Proof.
  intros I T P C TB TX. pose proof (ci_b p I) as B.
  assert (HK : hs_ok p) by (intros _; rewrite C; reflexivity).
  assert (FT : fread_typed e) by exact (proj2 (proj2 T)).
  destruct (sent_total e p B HK FT) as (q & ok & o & BS); [intros X; rewrite C in X; simpl in X; exfalso; intuition discriminate|rewrite C; discriminate|].
  pose proof (build_and_send_spec e p q ok o (cv_mode p B) (cv_seq p B) (cv_ty p B) FT HK BS) as CS.
  assert (X : ok = true /\ exists w, o = [OTx (255 :: w)] /\ cmd_code w = 96).
  { destruct CS as [(L & _)|(_ & p2 & pay & ss & ob & BC & RM & TY & _ & _ & _ & S)]; [lia|].
    assert (E : build_cmd_switch e (cp_init p) (cmd_smb p) (CpTx.cmd_room p) = Ok (cp_init p, Some [96], None, [])).
    { unfold build_cmd_switch. change (cmd_id (cp_init p)) with (cmd_id p). rewrite C. cbn [Z.eqb orb]. change ((96 =? CMD_POLL)) with true. cbn [orb]. unfold assert_len. replace (1 <? _) with true by lia. reflexivity. }
    rewrite E in BC. injection BC as <- <- <- <-. destruct S as [(X & _)|(d & D & S)]; [discriminate|]. injection D as <-.
    cbv zeta in S. destruct S as (S1 & _ & _ & _ & _ & _ & _ & [(LT & _)|(LE & (ot & -> & SE) & _)]).
    - exfalso. pose proof (wire_len (cp_init p) (cmd_body p [96] None) ltac:(apply TY) S1) as WL. rewrite zlen_cons in LT.
      assert (zlen (cmd_body p [96] None) <= 8) by (unfold cmd_body; rewrite C; destruct (sc_active (fl p)); unfold zlen; cbn; lia). lia.
    - pose proof (tx_buf_le p). destruct SE as [(_ & _ & X)|[(k & _ & _ & _ & X)|(-> & ->)]]; [lia|lia|]. split; [reflexivity|]. eexists. split; [reflexivity|]. apply poll_code; auto. apply B. }
  destruct X as (-> & w & -> & CW).
  exists (set_phy_tstamp (e_now e) (set_phy_state PReplyWait (set_reply_id REPLY_INVALID (state_reset false q)))), w.
  assert (U : state_update e p = Ok (set_phy_tstamp (e_now e) (set_phy_state PReplyWait (set_reply_id REPLY_INVALID (state_reset false q))), CInprog, [OTx (255 :: w)])).
  { unfold state_update, phy_running, phy_state_update. rewrite P. cbv iota. unfold phy_send. rewrite BS, !bind_Ok. reflexivity. }
  split; [exact U|]. split; [exact CW|reflexivity].
Qed.

Lemma poll_due e1 e2 c : cpi c -> env_typed e1 -> env_typed e2 -> rests c -> cmdq c = [] -> no_transfer c -> 50 < e_now e1 - tstamp c ->
  69 <= tx_buf_size c -> 256 <= e_tx e2 ->
  exists c1 c2 w, cp_do (Update e1) c = Ok (c1, []) /\ cp_do (Update e2) c1 = Ok (c2, [OTx (255 :: w)]) /\ cmd_code w = 96.
Proof.
  intros I T1 T2 [S P] Q NT D TB TX.
  assert (G : state_get_cmd e1 c = Ok (set_tstamp (e_now e1) c, 96, [])).
  { unfold state_get_cmd. rewrite S. unfold get_online_command. rewrite Q. destruct (file_tx_get_command e1 c) as [[p2 c2] o2] eqn:FT.
    apply (plain_choice e1 c _ _ _ NT) in FT as (-> & -> & ->). cbn. unfold POLL_TIMEOUT. replace (e_now e1 - tstamp c >? 50) with true by lia. reflexivity. }
  pose proof (pan_start e1 c (set_tstamp (e_now e1) c) 96 P P G ltac:(lia)) as U1.
  set (c1 := set_phy_state PSend (set_cmd_id 96 (set_tstamp (e_now e1) c))) in *.
  assert (D1 : cp_do (Update e1) c = Ok (c1, [])) by (unfold cp_do; rewrite U1; reflexivity).
  assert (I1 : cpi c1) by exact (cp_do_inv (Update e1) c c1 [] T1 I D1).
  destruct (poll_goes e2 c1 I1 T2 eq_refl eq_refl TB TX) as (c2 & w & U2 & W & _).
  exists c1, c2, w. split; [exact D1|]. split; [unfold cp_do; rewrite U2; reflexivity|exact W].
Qed.
