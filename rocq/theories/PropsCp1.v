(** Property theorems C08, C19, C22 (control panel), C29, C33 - C35: one entry of a control panel
    over whole runs. *)
From Verif Require Import Base ListLemmas Crc SpecCrc Aes Rb RbProofs Types Sc Phy File Pd Cp CpCtx CpApi SpecRx SpecFrame
  SpecSec SpecSession SpecReply SpecPd SpecCp SpecCpRun RxProofs PdRx PdCore PhyTx PdTx PdReply PdStep PdHist2 CpTx CpRx CpStep CpInv CpEdge CpFacts
  CpSum CpWire CpHist CpTime CpFwd CpRetry CpSeq CpQueue CpReply ExPd ExCp.
From Coq Require Import ZifyBool ZifyNat.
Local Opaque RB_SIZE aes_ecb_encrypt enc1 osdp_mac.

(** C34.  The state after a call is one of the documented successors of the state before; online is
    entered from capability detection or from a failed handshake only without ENFORCE_SECURE, and from
    a finished handshake with the session open. *)
Theorem C34_edges : forall p c q o,
  cp_reach p -> cp_call_typed c -> cp_do c p = Ok (q, o) ->
  successor (state p) (state q) = true /\
  (state q = SOnline -> state p <> SOnline ->
    (state p = SCapdet /\ enforce (fl p) = false) \/
    (state p = SScrypt /\ sc_active (fl q) = true) \/
    (state p = SScrypt /\ enforce (fl p) = false) \/
    (state p = SChlng /\ enforce (fl p) = false /\ sc_active (fl q) = false)).
Proof.
  intros p c q o R T D. destruct (is_update c) eqn:UC.
  - destruct c; try discriminate. destruct (cp_do_update _ _ _ _ D) as (rc & U).
    destruct (upd_moves e p q rc o (cp_reach_inv _ R) T U) as [A B _]. exact (conj A B).
  - destruct (other_eq _ _ _ _ UC D) as (E & _). destruct (ucore_fields _ _ E) as (-> & _).
    split; [destruct (state p); reflexivity|congruence].
Qed.
Print Assumptions C34_edges.

Example C34_example :
  map (fun en => state (ce_pd en)) (rev (chist_from ex_cinfo_sc 4 ex_sc_calls)) =
  [SInit; SInit; SInit; SCapdet; SCapdet; SCapdet; SChlng; SChlng; SChlng; SScrypt; SScrypt; SScrypt] /\
  state ex_cp_sc = SOnline.
Proof. vm_compute. auto. Qed.

(** C08.  If a session is open, then an intact reply with the right number was heard in answer to a
    challenge whose cryptogram is the AES encryption of both random numbers under the key derived from
    the configured key (or from the default key, if that one was chosen), and the session keys are
    derived from that very key. *)
Theorem C08_key_proved : forall k n i h p,
  cp_runs k n i h p -> sc_active (fl p) = true ->
  exists dflt, (dflt = true -> use_scbkd (fl p) = true) /\
    let base := base_key dflt (sc p) in
    let rnd := cp_random (sc p) in
    s_enc (sc p) = skey base rnd 130 /\ s_mac1 (sc p) = skey base rnd 1 /\ s_mac2 (sc p) = skey base rnd 2 /\
    exists en e f, In en h /\ ce_call en = Update e /\ state (ce_pd en) = SChlng /\
      cp_heard e (ce_pd en) f /\ cp_accepted (ce_pd en) f /\
      carries f (118 :: client_uid (sc p) ++ pd_random (sc p) ++ enc1 (skey base rnd 130) (firstn 8 rnd ++ pd_random (sc p))).
Proof.
  intros k n i h p R A. destruct (key_proved k n i h p R (or_intror A)) as (b & [(K1 & K2 & K3) D (en & e & f & X1 & X2 & X3 & X4 & X5 & (_ & _ & X6))]).
  exists b. split; [exact D|]. cbv zeta. split; [exact K1|]. split; [exact K2|]. split; [exact K3|]. exists en, e, f.
  exact (conj X1 (conj X2 (conj X3 (conj X4 (conj X5 X6))))).
Qed.
Print Assumptions C08_key_proved.

(** C08, second half.  The handshake goes on after a challenge only if this very refresh heard the
    right cryptogram, made with the key that is in use; and only the last step of the handshake opens
    a session. *)
Theorem C08_no_other : forall p e q o,
  cp_reach p -> env_typed e -> cp_do (Update e) p = Ok (q, o) ->
  (state p = SChlng -> state q = SScrypt ->
    exists f, cp_heard e p f /\ cp_accepted p f /\
      let base := base_key (use_scbkd (fl q)) (sc q) in let rnd := cp_random (sc q) in
      carries f (118 :: client_uid (sc q) ++ pd_random (sc q) ++ enc1 (skey base rnd 130) (firstn 8 rnd ++ pd_random (sc q)))) /\
  (sc_active (fl p) = false -> sc_active (fl q) = true -> state p = SScrypt).
Proof.
  intros p e q o R T D. destruct (cp_do_update _ _ _ _ D) as (rc & U). pose proof (cp_reach_inv _ R) as V.
  destruct (upd_summary e p q rc o V T U) as [[] | p1 RS PX PI FP FR | p1 p3 ok st RS PR PX CK FP FR].
  - split; [intros A B; congruence|intros A B; congruence].
  - destruct (idle_reason e p p1 true RS PI) as (ST & _ & _ & FL & _).
    assert (S1 : state p1 = state p) by apply PX.
    split; [intros A B; destruct ST; congruence|]. intros A B. exfalso.
    pose proof (fr_act _ _ _ _ FR) as X. unfold act_ok in X. rewrite FL, S1 in X.
    destruct ST as [E|E]; rewrite E in X; destruct (state q); try congruence; destruct X as [[X1 X2] | X1]; congruence.
  - destruct (checked_same p1 p3 st CK) as (S3 & _ & _ & _ & A3 & _).
    assert (S1 : state p1 = state p) by apply PX. assert (A1 := px_act _ _ PX).
    split.
    + intros A B. pose proof (fr_edge _ _ _ _ FR) as X. unfold edge_ok in X. rewrite S3, S1, A, B in X.
      apply andb_true_iff in X. destruct X as [X1 X2]. subst ok st.
      destruct (chlng_done e p p1 p3 q V RS CK PX FR A B PR) as (f & F1 & F2 & _ & (_ & _ & F3)).
      exists f. exact (conj F1 (conj F2 F3)).
    + intros A B. pose proof (fr_act _ _ _ _ FR) as X. unfold act_ok in X. rewrite S3, S1 in X.
      assert (N3 : sc_active (fl p3) = false).
      { destruct (sc_active (fl p3)) eqn:Y; auto. rewrite (A1 (A3 eq_refl)) in A. discriminate. }
      rewrite N3 in X. destruct (state p) eqn:SP; try reflexivity; exfalso; destruct (state q); try congruence; destruct X as [[X1 X2] | X1]; congruence.
Qed.
Print Assumptions C08_no_other.

Definition ex_before_chlng : pd := state_of (crun_from ex_cinfo_sc 4 (exch 1000 [reply 0 ex_pdid] ++ exch 1100 [reply 1 ex_pdcap])).
Example C08_example :
  sc_active (fl ex_cp_sc) = true /\
  (* the device holds another key *)
  let q := state_of (crun ex_before_chlng (exch 1200 [ex_ccrypt 2 (repeat 7 16) 1])) in
  state q = SOffline /\ sc_active (fl q) = false.
Proof. vm_compute. auto. Qed.

(** C22 (control panel).  Every transmission is the beginning of a packet that starts with the mark
    and the start byte, carries the device's address without the reply bit, the next number, a length
    field equal to its length and a valid CRC, and is not longer than the packet buffer nor than the
    receive size the device announced.  Its content is that of the command in service: in clear,
    as a step of the handshake, or in an open session under that session's keys. *)
Theorem C22_panel : forall e p q o d,
  cp_reach p -> env_typed e -> cp_do (Update e) p = Ok (q, o) -> In (OTx d) o ->
  exists F k w code data, d = firstn k F /\ (0 < k <= length F)%nat /\ F = 255 :: w /\
    bytes w /\ nth 0 w 0 = 83 /\ f_reply w = false /\ f_len w = zlen w /\ f_crc w = true /\ crc_valid w /\
    f_seq w = seq_next (seqn p) /\ nth 1 w 0 = address p mod 128 /\
    zlen F <= 256 /\ (peer_rx p <> 0 -> zlen F <= peer_rx p) /\
    (code = cmd_id p \/ cmd_id p = 124 /\ code = 162) /\ cmd_frame p code data w.
Proof.
  intros e p q o d R T D IN. destruct (cp_do_update _ _ _ _ D) as (rc & U).
  destruct (upd_tx e p q rc o d (cp_reach_inv _ R) T U IN) as (_ & _ & [(w & k & code & data & X1 & X2 & X3 & X4 & (Y1 & Y2 & Y3 & _) & X6 & X7 & X8 & X9 & XA & XB & XC)]).
  exists (255 :: w), (Z.to_nat k), w, code, data. split; [exact X1|]. split; [unfold zlen in X2; clear - X2; lia|].
  unfold tx_buf_size, PBUF_SIZE in X3.
  split; [reflexivity|]. split; [exact X4|]. split; [exact Y1|]. split; [exact Y2|]. split; [exact Y3|]. split; [exact X6|]. split; [exact X7|]. split; [exact X9|].
  split; [exact X8|]. split; [destruct (peer_rx p =? 0); clear - X3; lia|]. split; [intros Z; apply Z.eqb_neq in Z; rewrite Z in X3; clear - X3; lia|].
  split; [exact XA|exact XC].
Qed.
Print Assumptions C22_panel.

Example C22_panel_example :
  outs_of (crun ex_cp_sc [Update (ex_env 2000 []); Update (ex_env 2000 [])]) =
  [OTx (255 :: secure_frame 101 1 21 96 [] (s_enc (sc ex_cp_sc)) (s_mac1 (sc ex_cp_sc)) (s_mac2 (sc ex_cp_sc)) (r_mac (sc ex_cp_sc)))].
Proof. vm_compute. reflexivity. Qed.

(** C19.  Two transmissions in a row, with no BUSY and no restart of the numbering between them, and
    no attempt to transmit that failed: the second has the number after that of the first, where
    after 3 comes 1. *)
Theorem C19_cycle : forall p ea qa oa wa l q eb r ob wb,
  cp_reach p -> env_typed ea -> env_typed eb ->
  cp_do (Update ea) p = Ok (qa, oa) -> In (OTx (255 :: wa)) oa -> 5 <= zlen wa -> ~ restarts p qa ->
  cp_seg qa l q -> Forall (fun en => ~ sends en) l -> Forall (fun en => ~ hears_busy en) l -> Forall (fun en => ~ restarting en) l ->
  cp_do (Update eb) q = Ok (r, ob) -> In (OTx (255 :: wb)) ob -> 5 <= zlen wb ->
  f_seq wb = (if f_seq wa =? 3 then 1 else f_seq wa + 1).
Proof.
  intros p ea qa oa wa l q eb r ob wb R T1 T2 D1 I1 L1 N1 S F1 F2 F3 D2 I2 L2.
  destruct (cp_do_update _ _ _ _ D1) as (rc1 & U1). destruct (cp_do_update _ _ _ _ D2) as (rc2 & U2).
  rewrite (seq_cycle p ea qa rc1 oa wa l q eb r rc2 ob wb (cp_reach_inv _ R) T1 T2 U1 I1 L1 N1 S F1 F2 F3 U2 I2 L2).
  reflexivity.
Qed.
Print Assumptions C19_cycle.

(** C19.  A BUSY reply (number 0) in answer to the first of two transmissions: the second has the same number. *)
Theorem C19_busy : forall p ea qa oa wa l q eb rest f qb ob m q2 ec r oc wc,
  cp_reach p -> env_typed ea -> env_typed eb -> env_typed ec ->
  cp_do (Update ea) p = Ok (qa, oa) -> In (OTx (255 :: wa)) oa -> 5 <= zlen wa -> ~ restarts p qa ->
  cp_seg qa l q -> Forall (fun en => ~ sends en) l -> Forall (fun en => ~ hears_busy en) l -> Forall (fun en => ~ restarting en) l ->
  phy_state q = PReplyWait -> next_reply eb q f rest -> f_intact f -> f_mine (address q) f -> f_busy f ->
  cp_do (Update eb) q = Ok (qb, ob) ->
  cp_seg qb m q2 -> Forall (fun en => ~ sends en) m ->
  cp_do (Update ec) q2 = Ok (r, oc) -> In (OTx (255 :: wc)) oc -> 5 <= zlen wc ->
  f_seq wc = f_seq wa.
Proof.
  intros p ea qa oa wa l q eb rest f qb ob m q2 ec r oc wc R T1 T2 T3 D1 I1 L1 N1 S F1 F2 F3 PH NR FI FM FB D2 S2 F4 D3 I3 L3.
  destruct (cp_do_update _ _ _ _ D1) as (rc1 & U1). destruct (cp_do_update _ _ _ _ D2) as (rc2 & U2). destruct (cp_do_update _ _ _ _ D3) as (rc3 & U3).
  exact (seq_busy p ea qa rc1 oa wa l q eb rest f qb rc2 ob m q2 ec r rc3 oc wc (cp_reach_inv _ R) T1 T2 T3 U1 I1 L1 N1 S F1 F2 F3 PH NR FI FM FB U2 S2 F4 U3 I3 L3).
Qed.
Print Assumptions C19_busy.

(** C19.  The first transmission after the numbering restarts has number 0: a new entry, an entry
    that leaves the offline state, and one whose KEYSET exchange ends the online phase. *)
Theorem C19_first : forall p l q e r o w,
  cp_reach p -> seqn p = -1 -> cp_seg p l q -> Forall (fun en => ~ sends en) l ->
  env_typed e -> cp_do (Update e) q = Ok (r, o) -> In (OTx (255 :: w)) o -> 5 <= zlen w -> f_seq w = 0.
Proof.
  intros p l q e r o w R S0 S F T D IN L. destruct (cp_do_update _ _ _ _ D) as (rc & U).
  exact (seq_first p l q e r rc o w (cp_reach_inv _ R) S0 S F T U IN L).
Qed.
Print Assumptions C19_first.

Definition ex_poll (t sq : Z) : list cp_call := exch t [reply sq [64]].
Definition ex_busy : list Z := reply 0 [121].
Example C19_example :
  (* identification, capabilities, four polls *)
  numbers (outs_of (crun_from (ex_cinfo false false false false None) 4 (ex_up 0 ++ ex_poll 1200 2 ++ ex_poll 1300 3 ++ ex_poll 1400 1 ++ ex_poll 1500 2)))
  = [0; 1; 2; 3; 1; 2] /\
  (* the poll with number 2 is answered BUSY, and sent again *)
  numbers (outs_of (crun (ex_cp false false) (exch 1200 [ex_busy] ++ [Update (ex_env 2500 [])]))) = [2; 2].
Proof. vm_compute. auto. Qed.

(** "The numbers go 0, 1, 2, 3, 1, ... for ever" is false if a transmission fails: its number is used
    up.  Here number 2 is never sent. *)
Theorem C19_gap_refuted : exists i cs q o,
  cp_info_typed i /\ Forall cp_call_typed cs /\ crun_from i 4 cs = Ok (q, o) /\ numbers o = [0; 1; 3].
Proof.
  exists (ex_cinfo false false false false (Some ex_key)),
    (exch 1000 [reply 0 ex_pdid] ++ exch 1100 [reply 1 ex_pdcap] ++
      [Update (ex_env 1200 []); Update (ex_env_stuck 1200); Update (ex_env 1210 []); Update (ex_env 1210 [])]).
  do 2 eexists. split; [exact ex_key_ok|]. split; [|split; [apply (ok_eq (crun_from _ _ _)); vm_compute; reflexivity|vm_compute; reflexivity]].
  repeat apply Forall_cons; try apply Forall_nil; try exact I; first [apply ex_stuck_typed|apply ex_cenv_typed; vm_compute; reflexivity].
Qed.
Print Assumptions C19_gap_refuted.

(** A BUSY reply whose number is that of the command does not make the panel reuse the number. *)
Theorem C19_busy_number_refuted : exists p cs q o,
  cp_reach p /\ Forall cp_call_typed cs /\ crun p cs = Ok (q, o) /\
  cs = exch 1200 [reply 2 [121]] ++ [Update (ex_env 2500 [])] /\ numbers o = [2; 3].
Proof.
  exists (ex_cp false false). do 3 eexists. split; [apply ex_cp_reach|]. split; [|split; [|split; [reflexivity|]]].
  - ex_ccalls.
  - apply (ok_eq (crun _ _)); vm_compute; reflexivity.
  - vm_compute; reflexivity.
Qed.
Print Assumptions C19_busy_number_refuted.

(** C29.  What was taken up, followed by what is still queued, is what was accepted, in order, with
    commands left out only by flushing. *)
Theorem C29_order : forall k n i h p, cp_runs k n i h p ->
  left_out (in_time taken_cmd h ++ cmdq p) (in_time accepted_cmd h) /\
  (Forall (fun en => is_flush (ce_call en) = false) h -> in_time accepted_cmd h = in_time taken_cmd h ++ cmdq p).
Proof. exact queue_order. Qed.
Print Assumptions C29_order.

(** C29.  While the entry is online and serves something else than a poll or a file transfer, it
    serves the command taken up last, under the code that belongs to it (C22_panel says what is sent). *)
Theorem C29_served : forall k n i h p, cp_runs k n i h p ->
  phy_running p = true -> state p = SOnline -> ~ In (cmd_id p) [96; 124; 162] ->
  exists a c, in_time taken_cmd h = a ++ [c] /\ eph p = EphCmd c /\ wire_code (sc_active (fl p)) c (cmd_id p).
Proof. intros k n i h p R. exact (serving_runs k n i h p R). Qed.
Print Assumptions C29_served.

(** C29.  A command (other than a file transfer) is accepted exactly if the device is online, a block
    of the pool is free, and, for KEYSET, the type is 1 and a session is open; a refused call changes
    nothing. *)
Theorem C29_refusals : forall e p c,
  (queued c -> snd (fst (cp_send_command e p c)) = true <->
    state p = SOnline /\ zlen (cmdq p) < pool p /\ (forall ty n k, c = CKeyset ty n k -> ty = 1 /\ sc_active (fl p) = true)) /\
  (forall q o, cp_send_command e p c = (q, false, o) -> q = p /\ no_tx o /\ (queued c -> o = [])).
Proof. intros e p c. split; [exact (send_accepts e p c)|exact (send_refused e p c)]. Qed.
Print Assumptions C29_refusals.

Definition ex_buz (n : Z) : cmd := CBuzzer 0 2 n 1 1.
Example C29_example :
  let e := ex_env 1150 [] in
  let cs := ex_up 0 ++ [Send e (ex_buz 1); Send e (ex_buz 2); Send e (ex_buz 3)] ++ exch 1200 [reply 2 [64]] ++ exch 1300 [reply 3 [64]] in
  let h := chist_from (ex_cinfo false false false false None) 2 cs in
  in_time accepted_cmd h = [ex_buz 1; ex_buz 2] /\ in_time taken_cmd h = [ex_buz 1; ex_buz 2] /\
  filter is_tx (outs_of (crun (ex_cp false false) (Send e (ex_buz 1) :: Send e (ex_buz 2) :: exch 1200 [reply 2 [64]] ++ exch 1300 [reply 3 [64]]))) =
    [OTx (255 :: plain_frame 101 2 [106; 0; 2; 1; 1; 1]); OTx (255 :: plain_frame 101 3 [106; 0; 2; 2; 1; 1])].
Proof. vm_compute. auto. Qed.

(** C33.  An entry created with ENFORCE_SECURE and without INSTALL_MODE, whose flags the application
    leaves that way, is online only with an open session, never uses the default key, and sends
    nothing outside a session but identification, capability and handshake commands. *)
Theorem C33_online : forall k n i h p,
  enforce (i_flags i) = true -> install (i_flags i) = false ->
  cp_runs k n i h p -> Forall (fun en => stays_strict (ce_call en)) h ->
  (state p = SOnline -> sc_active (fl p) = true) /\ use_scbkd (fl p) = false.
Proof. intros k n i h p A B R F. destruct (strict_runs k n i h p A B R F) as [_ _ X Y]. exact (conj Y X). Qed.
Print Assumptions C33_online.

Theorem C33_sent : forall k n i h p en e d,
  enforce (i_flags i) = true -> install (i_flags i) = false ->
  cp_runs k n i h p -> Forall (fun en => stays_strict (ce_call en)) h ->
  In en h -> ce_call en = Update e -> In (OTx d) (ce_out en) ->
  let s := ce_pd en in
  exists code data w m, d = firstn m (255 :: w) /\
    ((sc_active (fl s) = true /\
      w = secure_frame (address s mod 128) (seq_next (seqn s)) (if zlen data >? 0 then 23 else 21) code data
            (s_enc (sc s)) (s_mac1 (sc s)) (s_mac2 (sc s)) (r_mac (sc s))) \/
     In code [97; 98; 118; 119]).
Proof.
  intros k n i h p en e d A B R F IN CE OT s.
  destruct (strict_tx k n i h p en e d A B R F IN CE OT) as ([(w & m & code & data & X1 & X2 & X3 & X4 & X5 & X6 & X7 & X8 & X9 & XA & XB & XC)] & Y).
  exists code, data, w, (Z.to_nat m). split; [exact X1|]. destruct Y as [Y|Y].
  - left. split; [exact Y|]. unfold cmd_frame in XC. rewrite Y in XC. exact XC.
  - right. destruct XA as [-> | [XA _]]; [exact Y|]. rewrite XA in Y. unfold CMD_FILETRANSFER in Y. simpl in Y. clear - Y. lia.
Qed.
Print Assumptions C33_sent.

Example C33_example :
  let h := chist_from ex_cinfo_sc 4 (ex_sc_calls ++ [Update (ex_env 2000 []); Update (ex_env 2000 [])]) in
  map (fun en => (state (ce_pd en), sc_active (fl (ce_pd en)), map is_tx (ce_out en))) (firstn 2 h) =
    [(SOnline, true, [true]); (SOnline, true, [])] /\
  (* a device without the key never gets online *)
  state (state_of (crun ex_before_chlng (exch 1200 [reply 2 [65; 5]]))) = SOffline.
Proof. vm_compute. auto. Qed.

(** Setting ENFORCE_SECURE later does not have that effect: an entry that is online without a session
    stays online, and its polls go out in clear. *)
Theorem C33_set_later_refuted : exists p cs q o,
  cp_reach p /\ Forall cp_call_typed cs /\ crun p cs = Ok (q, o) /\
  enforce (fl q) = true /\ state q = SOnline /\ sc_active (fl q) = false /\
  cs = [ModifyFlag true false false false true; Update (ex_env 1200 []); Update (ex_env 1200 [])] /\
  o = [OTx (255 :: plain_frame 101 2 [96])].
Proof.
  exists (ex_cp false false). do 3 eexists. split; [apply ex_cp_reach|]. split; [|split; [|split; [|split; [|split; [|split; [reflexivity|]]]]]].
  - ex_ccalls.
  - apply (ok_eq (crun _ _)); vm_compute; reflexivity.
  - vm_compute; reflexivity.
  - vm_compute; reflexivity.
  - vm_compute; reflexivity.
  - vm_compute; reflexivity.
Qed.
Print Assumptions C33_set_later_refuted.

(** C35.  While a command is in service and no intact frame for this entry is heard, it is transmitted
    at most nine times. *)
Theorem C35_count : forall p l q,
  cp_reach p -> cp_seg p l q -> Forall (fun en => phy_running (ce_pd en) = true) l -> Forall unanswered l ->
  seg_tx l <= 9.
Proof.
  intros p l q R S F U. pose proof (seg_count p l q S (cp_reach_inv _ R) F U) as X.
  pose proof (ci_retry _ (cp_reach_inv _ R)) as Y. unfold tries in X. destruct (phy_state p); lia.
Qed.
Print Assumptions C35_count.

(** C35.  Two transmissions of it in a row are more than 1000 ms (200 ms and 800 ms) apart. *)
Theorem C35_gap : forall p ea qa oa da l q eb r ob db,
  cp_reach p -> env_typed ea -> env_typed eb ->
  cp_do (Update ea) p = Ok (qa, oa) -> In (OTx da) oa -> cp_seg qa l q ->
  Forall (fun en => phy_running (ce_pd en) = true) l -> phy_running qa = true -> Forall unanswered l -> Forall (fun en => ~ transmits en) l ->
  cp_do (Update eb) q = Ok (r, ob) -> In (OTx db) ob -> e_now ea + 1000 < e_now eb.
Proof.
  intros p ea qa oa da l q eb r ob db R T1 T2 D1 I1 S F1 F2 F3 F4 D2 I2.
  destruct (cp_do_update _ _ _ _ D1) as (rc1 & U1). destruct (cp_do_update _ _ _ _ D2) as (rc2 & U2).
  exact (seg_gap p ea qa rc1 oa da l q eb r rc2 ob db (cp_reach_inv _ R) T1 T2 U1 I1 S F1 F2 F3 F4 U2 I2).
Qed.
Print Assumptions C35_gap.

(** C35.  The last try stays without answer for more than 200 ms: the device is taken offline, except
    in a handshake without ENFORCE_SECURE. *)
Theorem C35_offline_partial : forall e p q o,
  cp_reach p -> env_typed e -> cp_do (Update e) p = Ok (q, o) -> phy_state p = PReplyWait -> arrived e p = [] ->
  200 < e_now e - phy_tstamp p -> retry p = 8 ->
  state q = SOffline \/ (enforce (fl p) = false /\ (state p = SChlng \/ state p = SScrypt)).
Proof.
  intros e p q o R T D P A N Y. destruct (cp_do_update _ _ _ _ D) as (rc & U).
  exact (gives_up e p q rc o (cp_reach_inv _ R) (cp_reach_tinv _ R) T U P A N Y).
Qed.
Print Assumptions C35_offline_partial.

(* the command is sent at time t and not answered, k times *)
Fixpoint ex_silence (k : nat) (t : Z) : list cp_call :=
  match k with O => [] | S k => [Update (ex_env t []); Update (ex_env (t + 201) [])] ++ ex_silence k (t + 1001) end.
Example C35_example :
  let cs := Update (ex_env 1200 []) :: ex_silence 9 1200 in
  let q := state_of (crun (ex_cp false false) cs) in
  zlen (numbers (outs_of (crun (ex_cp false false) cs))) = 9 /\ state q = SOffline /\
  (* nothing more is sent *)
  numbers (outs_of (crun q [Update (ex_env 300000 []); Update (ex_env 300001 [])])) = [].
Proof. vm_compute. auto. Qed.

(** "Then offline" is false for an unanswered challenge without ENFORCE_SECURE: after nine
    transmissions the device is not taken offline but challenged at once with the default key,
    another time, and after that it is online (without a session) though it answers nothing. *)
Theorem C35_offline_refuted : exists p cs q o,
  cp_reach p /\ Forall cp_call_typed cs /\ crun p cs = Ok (q, o) /\
  state p = SChlng /\ enforce (fl p) = false /\
  cs = [Update (ex_env 1200 [])] ++ ex_silence 9 1200 ++ [Update (ex_env 10210 [])] ++ ex_silence 1 10210 /\
  state q = SOnline /\ zlen (numbers o) = 10.
Proof.
  exists (state_of (crun_from (ex_cinfo false false false false (Some ex_key)) 4 (exch 1000 [reply 0 ex_pdid] ++ exch 1100 [reply 1 ex_pdcap]))).
  do 3 eexists. split; [ex_crun|]. split; [|split; [|split; [|split; [|split; [reflexivity|]]]]].
  - ex_ccalls.
  - apply (ok_eq (crun _ _)); vm_compute; reflexivity.
  - vm_compute; reflexivity.
  - vm_compute; reflexivity.
  - vm_compute; auto.
Qed.
Print Assumptions C35_offline_refuted.
