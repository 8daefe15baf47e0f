(** Property theorems C54-C57: lost packets. *)
From Verif Require Import Base ListLemmas Crc SpecCrc Aes Rb RbProofs Types Sc Phy File Pd Cp CpCtx PdRun SpecRx SpecFrame SpecSec SpecSession SpecCmd SpecApp SpecPd SpecCp SpecCpRun SpecLink SpecHand SpecTalk
  SpecLost PdHist2 PdPlain CpInv CpSum CpHist Talk Talk2 Talk3 Talk4 Talk5 Lost Lost2 ExPd ExCp ExLink PropsTalk PropsFile SpecHand.
From Coq Require Import ZifyBool ZifyNat.
Local Opaque RB_SIZE aes_ecb_encrypt enc1 osdp_mac.

(** C54.  It is not so that a lost command is repaired by the retransmission.  Whatever the command, and
    whatever the states of panel and device outside a session, if the packet with the command gets lost
    and everything after it arrives, the panel sends it a second time under the next number, the device
    refuses that number and leaves its state as it was, and the panel takes the device offline. *)
Theorem C54_repaired_refuted : forall c p e1 e2 k q,
  pd_reach p -> connected c p -> sc_active (fl c) = false -> seqn p = seqn c -> state c = SOnline -> cmdq c = k :: q -> retry c < 8 ->
  95 <= tx_buf_size c -> cmd_in_range k -> (forall ty n d, k <> CKeyset ty n d) -> env_typed e1 -> env_typed e2 -> 256 <= e_tx e2 ->
  moves (cp_do (Update e1) c) (fun c1 => says (cp_do (Update e2) c1) (fun c2 _ =>
  forall e3, nothing e3 -> e_now e3 - e_now e2 > 200 -> moves (cp_do (Update e3) c2) (fun c3 =>
  forall e4, env_typed e4 -> 256 <= e_tx e4 -> 800 <= e_now e4 - e_now e3 -> says (cp_do (Update e4) c3) (fun c4 w2 =>
  forall e5, hears e5 w2 -> says (pd_do (Refresh e5) p) (fun p1 w3 => app_view p1 = app_view p /\
  forall e6, hears e6 w3 -> exists c5 o, cp_do (Update e6) c4 = Ok (c5, o) /\ state c5 = SOffline))))).
Proof.
  intros c p e1 e2 k q RP [RC Ph L (QC & QP) (N1 & N2)] Ac SE St CQ RT N3 RG NK T1 T2 X2.
  assert (KS : cmd_code k <> 117).
  { intros E. destruct k; cbn [cmd_code] in E; try discriminate; [exact (NK _ _ _ eq_refl)|]. repeat match type of E with (if ?b then _ else _) = _ => destruct b end; discriminate. }
  destruct (cmd_pending e1 c k q St CQ RG ltac:(intros X; destruct (KS X))) as (G & C0 & HS).
  destruct (lost_cmd e1 e2 c (set_eph (EphCmd k) (set_cmdq q c)) (cmd_code k) p (cmd_wire k) (cp_reach_inv c RC) (reach_inv p RP) T1 T2 X2 Ph Ph St G C0 HS) as (c1 & c2 & w & U1 & U2 & H); try assumption.
  - repeat split; reflexivity.
  - reflexivity.
  - apply cmd_fits; [exact RG|]. pose proof (tx_size c). lia.
  - intros e x smb m Cx Ex Ax M1 M2. apply cmd_built; try assumption. intros Y. destruct (KS Y).
  - exists c1. split; [unfold cp_do; rewrite U1; reflexivity|]. exists c2, w. split; [unfold cp_do; rewrite U2; reflexivity|].
    intros e3 E3 D3. destruct (H e3 E3 D3) as (c3 & U3 & H4). exists c3. split; [unfold cp_do; rewrite U3; reflexivity|].
    intros e4 T4 X4 D4. destruct (H4 e4 T4 X4 D4) as (c4 & w2 & U4 & H5). exists c4, w2. split; [unfold cp_do; rewrite U4; reflexivity|].
    intros e5 E5. destruct (H5 e5 E5) as (p1 & w3 & U5 & AV & H6). exists p1, w3. split; [exact U5|]. split; [exact AV|].
    intros e6 E6. destruct (H6 e6 E6) as (c5 & o & U6 & S6). exists c5, o. split; [unfold cp_do; rewrite U6; reflexivity|exact S6].
Qed.
Print Assumptions C54_repaired_refuted.

(* the pair of PropsFile, outside a session *)
Lemma ex_plain_pair : connected ex_qc ex_qp.
Proof. apply ex_may_send_plain. Qed.
Definition ex_qcl : pd := Eval vm_compute in set_cmdq [ex_led] ex_qc.
Lemma ex_qcl_reach : cp_reach ex_qcl.
Proof.
  assert (E : ex_qcl = state_of (crun ex_qc [Send (ex_env 1330 []) ex_led])) by (vm_compute; reflexivity). rewrite E.
  apply crun_reach3; [exact ex_qc_reach| |vm_compute; reflexivity]. apply Forall_cons; [|apply Forall_nil]. split; [apply ex_cenv_typed; reflexivity|exact I].
Qed.
Example C54_example :
  connected ex_qcl ex_qp /\ sc_active (fl ex_qcl) = false /\ seqn ex_qp = seqn ex_qcl /\ state ex_qcl = SOnline /\ cmdq ex_qcl = [ex_led] /\ retry ex_qcl < 8 /\ 95 <= tx_buf_size ex_qcl /\
  (* nothing lost: executed *)
  (let c1 := crun ex_qcl [Update (ex_env 1400 []); Update (ex_env 1400 [])] in app_calls (outs_of (pd_do (Refresh (ex_env 1400 [said (outs_of c1)])) ex_qp)) = [ex_led]) /\
  (* lost once *)
  (let c3 := crun ex_qcl [Update (ex_env 1400 []); Update (ex_env 1400 []); Update (ex_env 1601 [])] in
   let c4 := crun (state_of c3) [Update (ex_env 2401 [])] in
   let d1 := pd_do (Refresh (ex_env 2401 [said (outs_of c4)])) ex_qp in
   let c5 := crun (state_of c4) [Update (ex_env 2410 [said (outs_of d1)])] in
   app_calls (outs_of d1) = [] /\ state (state_of c4) = SOnline /\ state (state_of c5) = SOffline).
Proof.
  split.
  { destruct ex_plain_pair as [A B C (D & E) F]. constructor; [exact ex_qcl_reach|exact B| |split; [exact D|exact E]|exact F].
    apply (line_c ex_qc); [repeat split; reflexivity|exact C]. }
  vm_compute. repeat split; discriminate.
Qed.

(** C55.  Outside a session a reply that gets lost is repaired: the panel waits, asks again, the device
    answers again, and panel and device are connected as before.  In a session it is not:
    C55_session_refuted. *)
Theorem C55_lost_reply_partial : forall c p e1 e2,
  may_poll e1 c p -> tells_one p -> retry c < 8 -> env_typed e1 -> env_typed e2 -> 256 <= e_tx e2 ->
  moves (cp_do (Update e1) c) (fun c1 => says (cp_do (Update e2) c1) (fun c2 w1 =>
  forall e3, hears e3 w1 -> says (pd_do (Refresh e3) p) (fun p1 _ =>
  forall e4, nothing e4 -> e_now e4 - e_now e2 > 200 -> moves (cp_do (Update e4) c2) (fun c3 =>
  forall e5, env_typed e5 -> 256 <= e_tx e5 -> 800 <= e_now e5 - e_now e4 -> says (cp_do (Update e5) c3) (fun c4 w3 =>
  forall e6, hears e6 w3 -> says (pd_do (Refresh e6) p1) (fun p2 w4 =>
  forall e7, hears e7 w4 -> moves (cp_do (Update e7) c4) (fun c5 =>
    (state c5 = SOnline \/ state c5 = SChlng) /\ phy_state c5 = PIdle /\ line c5 p2 /\ quiet c5 /\ quiet p2))))))).
Proof.
  intros c p e1 e2 [[RC Ph L (QC & QP) (N1 & N2)] RP (St & Off & Ev) (CQ & NT & Du) (Ac & EN)] TO RT T1 T2 X2.
  destruct (lost_reply e1 e2 c p (cp_reach_inv c RC) (reach_inv p RP) T1 T2 X2 St Ph Off Ev CQ NT Du RT L Ac QC QP N1 N2 EN TO) as (c1 & c2 & w1 & U1 & U2 & H).
  exists c1. split; [unfold cp_do; rewrite U1; reflexivity|]. exists c2, w1. split; [unfold cp_do; rewrite U2; reflexivity|].
  intros e3 E3. destruct (H e3 E3) as (p1 & w2 & V1 & _ & H4). exists p1, w2. split; [exact V1|].
  intros e4 E4 D4. destruct (H4 e4 E4 D4) as (c3 & U3 & _ & H5). exists c3. split; [unfold cp_do; rewrite U3; reflexivity|].
  intros e5 T5 X5 D5. destruct (H5 e5 T5 X5 D5) as (c4 & w3 & U4 & H6). exists c4, w3. split; [unfold cp_do; rewrite U4; reflexivity|].
  intros e6 E6. destruct (H6 e6 E6) as (p2 & w4 & V2 & _ & H7). exists p2, w4. split; [exact V2|].
  intros e7 E7. destruct (H7 e7 E7) as (c5 & U5 & A1 & A2 & A3 & A4 & A5 & _). exists c5. split; [unfold cp_do; rewrite U5; reflexivity|]. auto.
Qed.
Print Assumptions C55_lost_reply_partial.

Lemma ex_may_poll t : t > 1380 -> may_poll (ex_env t []) ex_qc ex_qp.
Proof.
  intros T. constructor; [exact ex_plain_pair|exact ex_qp_reach|vm_compute; auto| |vm_compute; auto].
  split; [reflexivity|]. split; [vm_compute; auto|]. change (t - tstamp ex_qc > 50). assert (E : tstamp ex_qc <= 1330) by (vm_compute; discriminate). lia.
Qed.
Example C55_example :
  may_poll (ex_env 1400 []) ex_qc ex_qp /\ tells_one ex_qp /\ retry ex_qc < 8 /\
  (let c2 := crun ex_qc [Update (ex_env 1400 []); Update (ex_env 1400 [])] in
   let d1 := pd_do (Refresh (ex_env 1401 [said (outs_of c2)])) ex_qp in
   let c4 := crun (state_of c2) [Update (ex_env 1601 []); Update (ex_env 2401 [])] in
   let d2 := pd_do (Refresh (ex_env 2401 [said (outs_of c4)])) (state_of d1) in
   let c5 := crun (state_of c4) [Update (ex_env 2410 [said (outs_of d2)])] in
   said (outs_of d1) <> [] /\ said (outs_of c4) <> said (outs_of c2) /\ state (state_of c5) = SOnline).
Proof. split; [apply ex_may_poll; lia|]. split; [left; reflexivity|]. vm_compute. repeat split; discriminate. Qed.

(** In a session the panel has to drop the connection: reachable panel and device in step, one reply
    lost, everything else arrives; the panel ends offline. *)
Theorem C55_session_refuted : exists c p e1 e2 e3 c1 c2 w1 p1 w2,
  cp_reach c /\ pd_reach p /\ in_step c p /\ quiet c /\ quiet p /\ state c = SOnline /\ phy_state c = PIdle /\ retry c = 0 /\
  cp_do (Update e1) c = Ok (c1, []) /\ cp_do (Update e2) c1 = Ok (c2, [OTx w1]) /\ hears e3 w1 /\ pd_do (Refresh e3) p = Ok (p1, [OTx w2]) /\
  exists e4 e5 e6 e7 c3 c4 w3 p2 w4 c5 o,
  nothing e4 /\ e_now e4 - e_now e2 = 201 /\ cp_do (Update e4) c2 = Ok (c3, []) /\ e_now e5 - e_now e4 = 800 /\ cp_do (Update e5) c3 = Ok (c4, [OTx w3]) /\
  hears e6 w3 /\ pd_do (Refresh e6) p1 = Ok (p2, [OTx w4]) /\ hears e7 w4 /\ cp_do (Update e7) c4 = Ok (c5, o) /\ state c5 = SOffline.
Proof.
  pose (c1 := cp_do (Update (ex_env 1400 [])) ex_lc). pose (c2 := cp_do (Update (ex_env 1400 [])) (state_of c1)).
  pose (d1 := pd_do (Refresh (ex_env 1401 [said (outs_of c2)])) ex_lp).
  pose (c3 := cp_do (Update (ex_env 1601 [])) (state_of c2)). pose (c4 := cp_do (Update (ex_env 2401 [])) (state_of c3)).
  pose (d2 := pd_do (Refresh (ex_env 2401 [said (outs_of c4)])) (state_of d1)). pose (c5 := cp_do (Update (ex_env 2410 [said (outs_of d2)])) (state_of c4)).
  exists ex_lc, ex_lp, (ex_env 1400 []), (ex_env 1400 []), (ex_env 1401 [said (outs_of c2)]), (state_of c1), (state_of c2), (said (outs_of c2)), (state_of d1), (said (outs_of d1)).
  split; [exact ex_lc_reach|]. split; [exact ex_lp_reach|]. split; [exact ex_in_step|].
  assert (HE : forall t w, bytesb w = true -> (length w <= 64)%nat -> hears (ex_env t [w]) w).
  { intros t w B L. split; [apply ex_cenv_typed; cbn [forallb]; rewrite B; reflexivity|]. split; [apply ex_env_typed; cbn [forallb]; rewrite B; reflexivity|].
    assert (HH : heard [w] = w). { cbn [heard]. rewrite firstn_all2 by exact L. destruct (Nat.eqb _ _); [apply app_nil_r|reflexivity]. }
    split. { split; [constructor; [exact (bytesb_ok w B)|constructor]|]. unfold fits_ring. change (e_rx (ex_env t [w])) with [w]. rewrite HH. change RB_SIZE with 512%nat. lia. }
    split; [change (256 <= 1000); lia|]. change (e_rx (ex_env t [w])) with [w]. rewrite HH. exists [], []. split; [cbn [app]; rewrite app_nil_r; reflexivity|]. split; [intros []|left; reflexivity]. }
  split; [ex_quiet|]. split; [ex_quiet|]. split; [reflexivity|]. split; [reflexivity|]. split; [reflexivity|].
  split; [vm_compute; reflexivity|]. split; [vm_compute; reflexivity|]. split; [apply HE; [vm_compute; reflexivity|vm_compute; lia]|]. split; [vm_compute; reflexivity|].
  exists (ex_env 1601 []), (ex_env 2401 []), (ex_env 2401 [said (outs_of c4)]), (ex_env 2410 [said (outs_of d2)]), (state_of c3), (state_of c4), (said (outs_of c4)), (state_of d2), (said (outs_of d2)), (state_of c5), (outs_of c5).
  split; [split; [apply ex_cenv_typed; reflexivity|reflexivity]|]. split; [reflexivity|]. split; [vm_compute; reflexivity|]. split; [reflexivity|]. split; [vm_compute; reflexivity|].
  split; [apply HE; [vm_compute; reflexivity|vm_compute; lia]|]. split; [vm_compute; reflexivity|]. split; [apply HE; [vm_compute; reflexivity|vm_compute; lia]|]. split; vm_compute; reflexivity.
Qed.
Print Assumptions C55_session_refuted.

(** C56.  It is not so that an event survives the loss of the reply that carries it.  For every event:
    the device takes it off its queue when it answers, and the repeated poll gets an answer without
    it, so that the panel never reports it. *)
Theorem C56_event_refuted : forall c p e1 e2 ev pay,
  may_poll e1 c p -> evq p = [ev] -> event_payload (caps p) ev = Some pay -> ev_in_range ev -> fits (tx_buf_size p) false pay ->
  retry c < 8 -> env_typed e1 -> env_typed e2 -> 256 <= e_tx e2 ->
  moves (cp_do (Update e1) c) (fun c1 => says (cp_do (Update e2) c1) (fun c2 w1 =>
  forall e3, hears e3 w1 -> says (pd_do (Refresh e3) p) (fun p1 _ => evq p1 = [] /\
  forall e4, nothing e4 -> e_now e4 - e_now e2 > 200 -> moves (cp_do (Update e4) c2) (fun c3 =>
  forall e5, env_typed e5 -> 256 <= e_tx e5 -> 800 <= e_now e5 - e_now e4 -> says (cp_do (Update e5) c3) (fun c4 w3 =>
  forall e6, hears e6 w3 -> says (pd_do (Refresh e6) p1) (fun p2 w4 => evq p2 = [] /\
  forall e7, hears e7 w4 -> exists c5, cp_do (Update e7) c4 = Ok (c5, []) /\ phy_state c5 = PIdle)))))).
Proof.
  intros c p e1 e2 ev pay [[RC Ph L (QC & QP) (N1 & N2)] RP (St & Off & Ev) (CQ & NT & Du) (Ac & EN)] E1 E2 E3 E4 RT T1 T2 X2.
  destruct (lost_reply e1 e2 c p (cp_reach_inv c RC) (reach_inv p RP) T1 T2 X2 St Ph Off Ev CQ NT Du RT L Ac QC QP N1 N2 EN) as (c1 & c2 & w1 & U1 & U2 & H).
  { right. exists ev, pay. auto. }
  exists c1. split; [unfold cp_do; rewrite U1; reflexivity|]. exists c2, w1. split; [unfold cp_do; rewrite U2; reflexivity|].
  intros x3 Y3. destruct (H x3 Y3) as (p1 & w2 & V1 & V2 & H4). exists p1, w2. split; [exact V1|]. split; [exact V2|].
  intros x4 Y4 D4. destruct (H4 x4 Y4 D4) as (c3 & U3 & _ & H5). exists c3. split; [unfold cp_do; rewrite U3; reflexivity|].
  intros x5 T5 X5 D5. destruct (H5 x5 T5 X5 D5) as (c4 & w3 & U4 & H6). exists c4, w3. split; [unfold cp_do; rewrite U4; reflexivity|].
  intros x6 Y6. destruct (H6 x6 Y6) as (p2 & w4 & V3 & V4 & H7). exists p2, w4. split; [exact V3|]. split; [exact V4|].
  intros x7 Y7. destruct (H7 x7 Y7) as (c5 & U5 & A1 & A2 & _). exists c5. split; [unfold cp_do; rewrite U5; reflexivity|exact A2].
Qed.
Print Assumptions C56_event_refuted.

(* two key presses; the reply is lost, or it is not *)
Definition ex_qpe : pd := Eval vm_compute in state_of (run ex_qp [Notify (EKey 0 2 [49; 50])]).
Lemma ex_qpe_reach : pd_reach ex_qpe.
Proof.
  destruct ex_qp_reach as (i & n & h & R). exists i, n, (mkEntry ex_qp (Notify (EKey 0 2 [49; 50])) [] :: h).
  apply (runs_step i n h ex_qp (Notify (EKey 0 2 [49; 50])) ex_qpe []); [exact R| |vm_compute; reflexivity].
  split; [apply bytesb_ok; reflexivity|vm_compute; discriminate].
Qed.
Example C56_example :
  may_poll (ex_env 1400 []) ex_qc ex_qpe /\ evq ex_qpe = [EKey 0 2 [49; 50]] /\
  (exists pay, event_payload (caps ex_qpe) (EKey 0 2 [49; 50]) = Some pay /\ ev_in_range (EKey 0 2 [49; 50]) /\ fits (tx_buf_size ex_qpe) false pay) /\
  (let c2 := crun ex_qc [Update (ex_env 1400 []); Update (ex_env 1400 [])] in
   let d1 := pd_do (Refresh (ex_env 1401 [said (outs_of c2)])) ex_qpe in
   outs_of (crun (state_of c2) [Update (ex_env 1410 [said (outs_of d1)])]) = [OEv 0 (EKey 0 2 [49; 50])] /\
   let c4 := crun (state_of c2) [Update (ex_env 1601 []); Update (ex_env 2401 [])] in
   let d2 := pd_do (Refresh (ex_env 2401 [said (outs_of c4)])) (state_of d1) in
   outs_of (crun (state_of c4) [Update (ex_env 2410 [said (outs_of d2)])]) = []).
Proof.
  split.
  { destruct (ex_may_poll 1400 ltac:(lia)) as [[A B C (D & E) F] G H J K]. constructor; [constructor; [exact A|exact B| |split; [exact D|exact E]|exact F]|exact ex_qpe_reach|exact H|exact J|exact K].
    apply (line_p ex_qc ex_qp); [repeat split; reflexivity|exact C]. }
  split; [reflexivity|]. split.
  { eexists. split; [vm_compute; reflexivity|]. split; [cbn; unfold byte; repeat split; try lia; try (vm_compute; discriminate); apply bytesb_ok; reflexivity|].
    split; [apply bytesb_ok; reflexivity|]. vm_compute. repeat split; discriminate. }
  vm_compute. split; reflexivity.
Qed.

(** C57.  It is not so that each command has eight repetitions of its own.  The repetitions are counted
    over the life of the connection: a repaired loss leaves the count one higher, and when it stands
    at eight, one missing reply takes the device offline without another attempt. *)
Theorem C57_counted_partial :
  (forall c p e1 e2, may_poll e1 c p -> tells_one p -> retry c < 8 -> env_typed e1 -> env_typed e2 -> 256 <= e_tx e2 ->
   moves (cp_do (Update e1) c) (fun c1 => says (cp_do (Update e2) c1) (fun c2 w1 =>
   forall e3, hears e3 w1 -> says (pd_do (Refresh e3) p) (fun p1 _ =>
   forall e4, nothing e4 -> e_now e4 - e_now e2 > 200 -> moves (cp_do (Update e4) c2) (fun c3 =>
   forall e5, env_typed e5 -> 256 <= e_tx e5 -> 800 <= e_now e5 - e_now e4 -> says (cp_do (Update e5) c3) (fun c4 w3 =>
   forall e6, hears e6 w3 -> says (pd_do (Refresh e6) p1) (fun p2 w4 =>
   forall e7, hears e7 w4 -> moves (cp_do (Update e7) c4) (fun c5 => retry c5 = retry c + 1)))))))) /\
  (forall c p e1 e2, may_poll e1 c p -> retry c = 8 -> env_typed e1 -> env_typed e2 -> 256 <= e_tx e2 ->
   moves (cp_do (Update e1) c) (fun c1 => says (cp_do (Update e2) c1) (fun c2 w1 =>
   forall e3, nothing e3 -> e_now e3 - e_now e2 > 200 -> exists c3 o, cp_do (Update e3) c2 = Ok (c3, o) /\ state c3 = SOffline))).
Proof.
  split.
  - intros c p e1 e2 [[RC Ph L (QC & QP) (N1 & N2)] RP (St & Off & Ev) (CQ & NT & Du) (Ac & EN)] TO RT T1 T2 X2.
    destruct (lost_reply e1 e2 c p (cp_reach_inv c RC) (reach_inv p RP) T1 T2 X2 St Ph Off Ev CQ NT Du RT L Ac QC QP N1 N2 EN TO) as (c1 & c2 & w1 & U1 & U2 & H).
    exists c1. split; [unfold cp_do; rewrite U1; reflexivity|]. exists c2, w1. split; [unfold cp_do; rewrite U2; reflexivity|].
    intros e3 E3. destruct (H e3 E3) as (p1 & w2 & V1 & _ & H4). exists p1, w2. split; [exact V1|].
    intros e4 E4 D4. destruct (H4 e4 E4 D4) as (c3 & U3 & _ & H5). exists c3. split; [unfold cp_do; rewrite U3; reflexivity|].
    intros e5 T5 X5 D5. destruct (H5 e5 T5 X5 D5) as (c4 & w3 & U4 & H6). exists c4, w3. split; [unfold cp_do; rewrite U4; reflexivity|].
    intros e6 E6. destruct (H6 e6 E6) as (p2 & w4 & V2 & _ & H7). exists p2, w4. split; [exact V2|].
    intros e7 E7. destruct (H7 e7 E7) as (c5 & U5 & _ & _ & _ & _ & _ & A6). exists c5. split; [unfold cp_do; rewrite U5; reflexivity|exact A6].
  - intros c p e1 e2 [[RC Ph L (QC & QP) (N1 & N2)] RP (St & Off & Ev) (CQ & NT & Du) (Ac & EN)] RT T1 T2 X2.
    destruct (no_retry_left e1 e2 c p (cp_reach_inv c RC) T1 T2 X2 St Ph CQ NT Du ltac:(lia) L QC QP N1) as (c1 & c2 & w1 & U1 & U2 & H).
    exists c1. split; [unfold cp_do; rewrite U1; reflexivity|]. exists c2, w1. split; [unfold cp_do; rewrite U2; reflexivity|].
    intros e3 E3 D3. destruct (H e3 E3 D3) as (c3 & o & U3 & S3). exists c3, o. split; [unfold cp_do; rewrite U3; reflexivity|exact S3].
Qed.
Print Assumptions C57_counted_partial.

(* n polls of which the first reply is lost and the second arrives: 1100 ms each *)
Fixpoint lossy (n : nat) (t : Z) (c p : pd) : pd * pd :=
  match n with
  | O => (c, p)
  | S n =>
      let c2 := crun c [Update (ex_env t []); Update (ex_env t [])] in
      let d1 := pd_do (Refresh (ex_env t [said (outs_of c2)])) p in
      let c4 := crun (state_of c2) [Update (ex_env (t + 201) []); Update (ex_env (t + 1001) [])] in
      let d2 := pd_do (Refresh (ex_env (t + 1001) [said (outs_of c4)])) (state_of d1) in
      let c5 := crun (state_of c4) [Update (ex_env (t + 1010) [said (outs_of d2)])] in
      lossy n (t + 1100) (state_of c5) (state_of d2)
  end.
Fixpoint lossy_ok (n : nat) (t : Z) (c p : pd) : bool :=
  match n with
  | O => true
  | S n =>
      let c2 := crun c [Update (ex_env t []); Update (ex_env t [])] in
      let d1 := pd_do (Refresh (ex_env t [said (outs_of c2)])) p in
      let c4 := crun (state_of c2) [Update (ex_env (t + 201) []); Update (ex_env (t + 1001) [])] in
      let d2 := pd_do (Refresh (ex_env (t + 1001) [said (outs_of c4)])) (state_of d1) in
      let c5 := crun (state_of c4) [Update (ex_env (t + 1010) [said (outs_of d2)])] in
      is_ok c2 && is_ok c4 && is_ok c5 && bytesb (said (outs_of d2)) && lossy_ok n (t + 1100) (state_of c5) (state_of d2)
  end.
Lemma lossy_reach : forall n t c p, cp_reach c -> lossy_ok n t c p = true -> cp_reach (fst (lossy n t c p)).
Proof.
  induction n as [|n IH]; intros t c p R H; [exact R|]. cbn [lossy lossy_ok] in *. apply andb_true_iff in H as [H H5]. apply andb_true_iff in H as [H H4].
  apply andb_true_iff in H as [H H3]. apply andb_true_iff in H as [H1 H2]. apply IH; [|exact H5].
  repeat (apply crun_reach3; [|repeat apply Forall_cons; try apply Forall_nil; apply ex_cenv_typed; cbn [forallb]; rewrite ?H4; reflexivity|assumption]). exact R.
Qed.
(** A panel that has repaired eight losses, and is online, gives up at the first missing reply; a fresh
    one waits for the repetition. *)
Theorem C57_retries_refuted :
  let cp := lossy 8 1400 ex_qc ex_qp in
  let c := crun (fst cp) [Update (ex_env 10300 []); Update (ex_env 10300 []); Update (ex_env 10501 [])] in
  let c' := crun ex_qc [Update (ex_env 10300 []); Update (ex_env 10300 []); Update (ex_env 10501 [])] in
  cp_reach (fst cp) /\ state (fst cp) = SOnline /\ phy_state (fst cp) = PIdle /\ cmdq (fst cp) = [] /\ state (state_of c) = SOffline /\
  state (state_of c') = SOnline /\ phy_state (state_of c') = PWait.
Proof. cbv zeta. split; [apply lossy_reach; [exact ex_qc_reach|vm_compute; reflexivity]|]. vm_compute. repeat split. Qed.
Print Assumptions C57_retries_refuted.
