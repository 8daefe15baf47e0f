(** Property theorems C38, C39, C46 - C48, C52, C53: replies, events, flags and the offline period of
    one entry of a control panel. *)
From Verif Require Import Base ListLemmas Crc SpecCrc Aes Rb RbProofs Types Sc Phy File Pd Cp CpCtx CpApi SpecRx SpecFrame
  SpecSec SpecSession SpecReply SpecPd SpecCp SpecCpRun RxProofs PdRx PdCore PhyTx PdTx PdReply PdStep PdHist2 CpTx CpRx CpStep CpInv CpEdge CpFacts
  CpSum CpWire CpHist CpTime CpFwd CpRetry CpSeq CpQueue CpReply ExPd ExCp.
From Coq Require Import ZifyBool ZifyNat.
Local Opaque RB_SIZE aes_ecb_encrypt enc1 osdp_mac.

(** C38.  An online entry ends an exchange without going offline only if it heard an intact reply for
    it, with the number of the command, that is ACK or the reply specified for the command (with
    IGN_UNSOLICITED: to a poll, anything but NAK); a KEYSET may instead restart the handshake. *)
Theorem C38_answer : forall e p q o,
  cp_reach p -> env_typed e -> cp_do (Update e) p = Ok (q, o) ->
  state p = SOnline -> phy_running p = true -> phy_running q = false ->
  (exists l, heard_reply e p l /\
     (answers_cmd (cmd_id p) (getb l 0) \/ (cmd_id p = 96 /\ ign_unsol (fl p) = true /\ getb l 0 <> 65))) \/
  state q = SOffline \/ (state q = SChlng /\ cmd_id p = 117).
Proof.
  intros e p q o R T D S A B. destruct (cp_do_update _ _ _ _ D) as (rc & U).
  exact (online_answered e p q rc o (cp_reach_inv _ R) (cp_reach_tinv _ R) T U S A B).
Qed.
Print Assumptions C38_answer.

(* a buzzer command is under way *)
Definition ex_buz (n : Z) : cmd := CBuzzer 0 2 n 1 1.
Definition ex_with_buz : pd := state_of (crun (ex_cp false true) [Send (ex_env 1150 []) (ex_buz 1); Update (ex_env 1200 []); Update (ex_env 1200 [])]).
Example C38_example :
  phy_running ex_with_buz = true /\ cmd_id ex_with_buz = 106 /\
  state (state_of (crun ex_with_buz [Update (ex_env 1210 [reply 2 [64]])])) = SOnline /\
  (* a keypad report is no answer to a buzzer command *)
  state (state_of (crun ex_with_buz [Update (ex_env 1210 [reply 2 [83; 0; 1; 49]])])) = SOffline.
Proof. vm_compute. auto. Qed.

(** C39.  A command is reported as successful only if an intact answer to it, with its number and of
    the right kind, was heard in this refresh - or if its transmission failed just now. *)
Theorem C39_status_partial : forall e p q o j a,
  cp_reach p -> env_typed e -> cp_do (Update e) p = Ok (q, o) -> In (OEv j (ENotif 0 a 1)) o ->
  (exists l, heard_reply e p l /\ answers_cmd (cmd_id p) (getb l 0) /\ phy_state p = PReplyWait) \/ sending e p.
Proof.
  intros e p q o j a R T D IN. destruct (cp_do_update _ _ _ _ D) as (rc & U). pose proof R as (k & n & i & h & RR).
  destruct (upd_success e p q rc o (cp_reach_inv _ R) (cp_reach_tinv _ R) (runs_no_notif k n i h p RR) T U) as [X | (P & _ & l & H1 & H2)].
  - exists j, a. exact IN.
  - right. exact X.
  - left. exists l. exact (conj H1 (conj H2 P)).
Qed.
Print Assumptions C39_status_partial.

(** C39.  The key of an entry changes only while a KEYSET with exactly that key is under way, and an
    ACK to it was heard in this refresh - or its transmission failed just now. *)
Theorem C39_key_partial : forall e p q o,
  cp_reach p -> env_typed e -> cp_do (Update e) p = Ok (q, o) -> has_scbk (fl p) = true -> scbk (sc q) <> scbk (sc p) ->
  state p = SOnline /\ cmd_id p = 117 /\ (exists ty n k, eph p = EphCmd (CKeyset ty n k) /\ take_arr k 16 = Ok (scbk (sc q))) /\
  (sending e p \/ phy_state p = PReplyWait /\ exists l, heard_reply e p l /\ getb l 0 = 64).
Proof.
  intros e p q o R T D A B. destruct (cp_do_update _ _ _ _ D) as (rc & U).
  exact (upd_key e p q rc o (cp_reach_inv _ R) (cp_reach_tinv _ R) T U A B).
Qed.
Print Assumptions C39_key_partial.

Definition ex_set_key : cmd := CKeyset 1 16 (map Z.of_nat (seq 1 16)).
(* ACK inside the session, number sq, for the entry p *)
Definition ex_sec_ack (p : pd) (sq : Z) : list Z :=
  secure_frame 229 sq 22 64 [] (s_enc (sc p)) (s_mac1 (sc p)) (s_mac2 (sc p)) (c_mac (sc p)).
Example C39_example :
  In (OEv 0 (ENotif 0 3 1)) (outs_of (crun ex_with_buz [Update (ex_env 1210 [reply 2 [64]])])) /\
  In (OEv 0 (ENotif 0 3 0)) (outs_of (crun ex_with_buz [Update (ex_env 1210 [reply 2 [65; 1]])])) /\
  (* a key is set, and acknowledged *)
  let p := state_of (crun ex_cp_sc [Send (ex_env 1400 []) ex_set_key; Update (ex_env 1400 []); Update (ex_env 1400 [])]) in
  let q := state_of (crun p [Update (ex_env 1410 [ex_sec_ack p 1])]) in
  scbk (sc p) = ex_key /\ scbk (sc q) = map Z.of_nat (seq 1 16) /\ state q = SChlng.
Proof. vm_compute. intuition. Qed.

(** Without the exception C39 is false: the transmission of a command fails, the device never gets
    it, and the command is reported as successful because the reply before was an ACK. *)
Theorem C39_status_refuted : exists p cs q o,
  cp_reach p /\ Forall cp_call_typed cs /\ crun p cs = Ok (q, o) /\
  cs = exch 1200 [reply 2 [64]] ++ [Send (ex_env 1220 []) (ex_buz 1); Update (ex_env 1230 []); Update (ex_env_stuck 1230)] /\
  filter is_tx o = [OTx (255 :: plain_frame 101 2 [96])] /\ In (OEv 0 (ENotif 0 3 1)) o.
Proof.
  exists (ex_cp false true). do 3 eexists. split; [apply ex_cp_reach|]. split; [|split; [|split; [reflexivity|]]].
  - repeat apply Forall_cons; try apply Forall_nil; try exact I; first [apply ex_stuck_typed|apply ex_cenv_typed; vm_compute; reflexivity|split; [apply ex_cenv_typed; vm_compute; reflexivity|exact I]].
  - apply (ok_eq (crun _ _)); vm_compute; reflexivity.
  - vm_compute. intuition.
Qed.
Print Assumptions C39_status_refuted.

(** The same with a KEYSET: the panel commits to a key that was never sent (the device keeps the old
    one), reports success, and starts a handshake with the new key instead of going offline (C38). *)
Theorem C39_key_refuted : exists p cs q o,
  cp_reach p /\ Forall cp_call_typed cs /\ crun p cs = Ok (q, o) /\
  cs = [Send (ex_env 1420 []) ex_set_key; Update (ex_env 1420 []); Update (ex_env_stuck 1430)] /\
  o = [OEv 0 (ENotif 1 0 0); OEv 0 (ENotif 0 5 1)] /\
  scbk (sc p) = ex_key /\ scbk (sc q) = map Z.of_nat (seq 1 16) /\ state q = SChlng.
Proof.
  exists (state_of (crun ex_cp_sc ([Update (ex_env 1400 []); Update (ex_env 1400 [])] ++
    [Update (ex_env 1410 [ex_sec_ack (state_of (crun ex_cp_sc [Update (ex_env 1400 []); Update (ex_env 1400 [])])) 1])]))).
  do 3 eexists. split; [|split; [|split; [|split; [reflexivity|]]]].
  - apply crun_reach3; [exact (proj1 ex_cp_sc_reach)|ex_ccalls|vm_compute; reflexivity].
  - repeat apply Forall_cons; try apply Forall_nil; try exact I; first [apply ex_stuck_typed|apply ex_cenv_typed; vm_compute; reflexivity
      |split; [apply ex_cenv_typed; vm_compute; reflexivity|apply bytesb_ok; reflexivity]].
  - apply (ok_eq (crun _ _)); vm_compute; reflexivity.
  - vm_compute. intuition.
Qed.
Print Assumptions C39_key_refuted.

(** C47.  The event callback gets, besides notifications, only events that exactly an intact reply
    for this entry, with the number of the command, reported in this or an earlier refresh - or, if
    the entry is not online yet, some other data in place of an event. *)
Theorem C47_told_partial : forall k n i h p c q o,
  cp_runs k n i h p -> cp_call_typed c -> cp_do c p = Ok (q, o) ->
  filter is_report o = [] \/
  (exists ev en e l, filter is_report o = [OEv (idx p) ev] /\ In en (mkCe p c o :: h) /\ ce_call en = Update e /\
     heard_reply e (ce_pd en) l /\ reports l ev) \/
  (exists x, filter is_report o = [OEvRaw (idx p) x] /\ state p <> SOnline).
Proof.
  intros k n i h p c q o R T D. destruct (event_told k n i h p c q o R T D) as [X | [(ev & X & en & IN & e & CE & l & H1 & H2) | (x & X & S & _)]].
  - left. exact X.
  - right. left. exists ev, en, e, l. exact (conj X (conj IN (conj CE (conj H1 H2)))).
  - right. right. exists x. exact (conj X S).
Qed.
Print Assumptions C47_told_partial.

(** C47.  Once per reply: after a call that reports something, the next report of an event comes only
    after a further reply with an event. *)
Theorem C47_once : forall p c1 p1 o1 l p2 c2 o2 q ev,
  cp_reach p -> cp_do c1 p = Ok (p1, o1) -> cp_seg p (mkCe p c1 o1 :: l) p2 ->
  cp_call_typed c2 -> cp_do c2 p2 = Ok (q, o2) -> filter is_report o1 <> [] -> In (OEv (idx p2) ev) o2 -> is_notif ev = false ->
  exists en e m ev, In en (l ++ [mkCe p2 c2 o2]) /\ ce_call en = Update e /\ heard_reply e (ce_pd en) m /\ reports m ev.
Proof.
  intros p c1 p1 o1 l p2 c2 o2 q ev R D1 S T D2 F IN N.
  destruct (report_again p c1 p1 o1 l p2 c2 o2 q ev R S D1 T D2 F IN N) as (en & I1 & ev1 & e & CE & m & H1 & H2).
  exists en, e, m, ev1. exact (conj I1 (conj CE (conj H1 H2))).
Qed.
Print Assumptions C47_once.

Example C47_example :
  let o := outs_of (crun (ex_cp false false) (exch 1200 [reply 2 [83; 0; 3; 49; 50; 51]] ++ exch 1300 [reply 3 [64]] ++ exch 1400 [reply 1 [80; 1; 0; 12; 0; 171; 205]])) in
  filter is_report o = [OEv 0 (EKey 0 3 [49; 50; 51]); OEv 0 (ECard 1 0 0 12 [171; 205])].
Proof. vm_compute. auto. Qed.

(** C47 without the last case is false, and what is handed out then can be the key of the device: a
    keypad report in answer to the first ID request is kept over the offline period; the device then
    does a handshake with the default key, gets the configured key by KEYSET (acknowledged in
    clear), does the handshake with that key, and when it is online the application's event
    callback is called with the buffer that still holds that KEYSET command. *)
Definition ex_cp_dflt : list cp_call :=
  exch 1000 [reply 0 [83; 0; 1; 49]] ++ [Update (ex_env 400000 [])] ++
  exch 400100 [reply 0 ex_pdid] ++ exch 400200 [reply 1 ex_pdcap] ++
  exch 400300 [reply 2 [65; 5]] ++ exch 400400 [ex_ccrypt 3 scbk_default 0] ++ exch 400500 [ex_rmac 1] ++
  exch 400600 [reply 2 [64]] ++ exch 400700 [ex_ccrypt 3 ex_key 1].
Theorem C47_raw_refuted : exists p cs q o,
  cp_reach p /\ Forall cp_call_typed cs /\ crun p cs = Ok (q, o) /\
  cs = exch 400800 [ex_rmac 1] /\
  filter is_report o = [OEvRaw 0 (EphCmd (CKeyset 1 16 ex_key))].
Proof.
  exists (state_of (crun_from (ex_cinfo false false false false (Some ex_key)) 4 ex_cp_dflt)).
  do 3 eexists. split; [|split; [|split; [|split; [reflexivity|]]]].
  - ex_crun.
  - ex_ccalls.
  - apply (ok_eq (crun _ _)); vm_compute; reflexivity.
  - vm_compute. reflexivity.
Qed.
Print Assumptions C47_raw_refuted.

(** C46.  A call with flags among the three allowed ones sets or clears exactly those and changes
    nothing else; any other flag makes the call fail without effect. *)
Lemma land_allowed w : 0 <= w < 2 ^ 32 ->
  Z.land w (2 ^ 32 - 1 - ALL_FLAGS) = 0 <-> (forall k, 0 <= k < 32 -> Z.testbit w k = true -> In k [16; 17; 18]).
Proof.
  intros W.
  assert (M : forall k, 0 <= k < 32 -> Z.testbit (2 ^ 32 - 1 - ALL_FLAGS) k = negb ((k =? 16) || (k =? 17) || (k =? 18))).
  { assert (A : forallb (fun n => Bool.eqb (Z.testbit (2 ^ 32 - 1 - ALL_FLAGS) (Z.of_nat n)) (negb ((Z.of_nat n =? 16) || (Z.of_nat n =? 17) || (Z.of_nat n =? 18)))) (seq 0 32) = true) by reflexivity.
    rewrite forallb_forall in A. intros k K. specialize (A (Z.to_nat k)). rewrite Z2Nat.id in A by lia. apply eqb_prop. apply A. apply in_seq. lia. }
  split.
  - intros E k K T. assert (X : Z.testbit (Z.land w (2 ^ 32 - 1 - ALL_FLAGS)) k = false) by (rewrite E; apply Z.testbit_0_l).
    rewrite Z.land_spec, T, M in X by auto. simpl. lia.
  - intros H. apply Z.bits_inj'. intros k K. rewrite Z.testbit_0_l, Z.land_spec.
    destruct (Z.testbit w k) eqn:T; auto. simpl. destruct (Z_lt_le_dec k 32) as [L|L].
    + rewrite M by lia. specialize (H k ltac:(lia) T). simpl in H. lia.
    + exfalso. destruct (Z.eq_dec w 0) as [-> | NZ]; [rewrite Z.testbit_0_l in T; discriminate|].
      rewrite Z.bits_above_log2 in T; try discriminate; [lia|]. apply Z.lt_le_trans with 32; auto. apply Z.log2_lt_pow2; lia.
Qed.
Lemma fl_id p : set_fl (fl p) p = p.
Proof. destruct p; reflexivity. Qed.
Theorem C46_flags : forall w do_set p, 0 <= w < 2 ^ 32 ->
  ((forall k, 0 <= k < 32 -> Z.testbit w k = true -> In k [16; 17; 18]) ->
     snd (modify_flags w do_set p) = true /\
     (exists f, fst (modify_flags w do_set p) = set_fl f p /\
        forall k, 0 <= k < 32 -> flag_bit f k = if Z.testbit w k then do_set else flag_bit (fl p) k)) /\
  ((exists k, 0 <= k < 32 /\ Z.testbit w k = true /\ ~ In k [16; 17; 18]) -> modify_flags w do_set p = (p, false)).
Proof.
  intros w d p W. split.
  - intros H. pose proof (proj2 (land_allowed w W) H) as E. unfold modify_flags, cp_modify_flag. rewrite E. change (negb (0 =? 0)) with false. cbv iota. cbn [fst snd].
    split; [reflexivity|]. exists (fl (fst (modify_flags w d p))). unfold modify_flags, cp_modify_flag. rewrite E. change (negb (0 =? 0)) with false. cbv iota. cbn [fst snd].
    split; [destruct (Z.testbit w 16), (Z.testbit w 17), (Z.testbit w 18); first [reflexivity|symmetry; apply fl_id]|].
    intros k K. destruct (Z.testbit w k) eqn:T.
    + specialize (H k K T). cbn [In] in H. destruct H as [<- | [<- | [<- | []]]]; rewrite T; destruct (Z.testbit w 16), (Z.testbit w 17), (Z.testbit w 18); reflexivity.
    + destruct (Z.eqb_spec k 16) as [-> | N1]; [rewrite T; destruct (Z.testbit w 17), (Z.testbit w 18); reflexivity|].
      destruct (Z.eqb_spec k 17) as [-> | N2]; [rewrite T; destruct (Z.testbit w 16), (Z.testbit w 18); reflexivity|].
      destruct (Z.eqb_spec k 18) as [-> | N3]; [rewrite T; destruct (Z.testbit w 17), (Z.testbit w 16); reflexivity|].
      apply Z.eqb_neq in N1, N2, N3. unfold flag_bit. rewrite N1, N2, N3. destruct (Z.testbit w 16), (Z.testbit w 17), (Z.testbit w 18); reflexivity.
  - intros (k & K & T & N). unfold modify_flags, cp_modify_flag.
    destruct (Z.land w (2 ^ 32 - 1 - ALL_FLAGS) =? 0) eqn:E; [|reflexivity].
    apply Z.eqb_eq in E. exfalso. apply N. exact (proj1 (land_allowed w W) E k K T).
Qed.
Print Assumptions C46_flags.

Example C46_example :
  let p := ex_cp false false in
  (map (flag_bit (fl (fst (modify_flags (65536 + 262144) true p)))) [16; 17; 18; 19], snd (modify_flags (65536 + 262144) true p)) =
    ([true; false; true; false], true) /\
  modify_flags (65536 + 524288) true p = (p, false).
Proof. vm_compute. auto. Qed.

(** C48.  When the entry turns offline at time t, it transmits nothing in any call up to t + 300000 ms,
    and stays offline. *)
Theorem C48_quiet : forall p e q o l r,
  cp_reach p -> env_typed e -> cp_do (Update e) p = Ok (q, o) -> state p <> SOffline -> state q = SOffline ->
  cp_seg q l r -> Forall (fun en => forall x, ce_call en = Update x -> e_now x <= e_now e + 300000) l ->
  state r = SOffline /\ Forall (fun en => forall d, ~ In (OTx d) (ce_out en)) l.
Proof.
  intros p e q o l r R T D A B S F. destruct (cp_do_update _ _ _ _ D) as (rc & U).
  destruct (goes_offline e p q rc o (cp_reach_inv _ R) T U A B) as (T1 & _).
  pose proof (reach_step p (Update e) q o R T D) as RQ.
  destruct (offline_quiet q l r S (cp_reach_inv _ RQ) (cp_reach_tinv _ RQ) B) as (X1 & X2 & _).
  - rewrite T1. eapply Forall_impl; [|exact F]. cbv beta; intros en X. unfold before. destruct (ce_call en); try exact I. apply (X _ eq_refl).
  - split; [exact X2|]. eapply Forall_impl; [|exact X1]. intros en X d IN. apply X. exists d. exact IN.
Qed.
Print Assumptions C48_quiet.

(** C48.  The first thing an offline entry transmits afterwards is an ID request with number 0, in
    clear. *)
Theorem C48_restart : forall p l q e r o d,
  cp_reach p -> state p = SOffline -> cp_seg p l q -> Forall (fun en => ~ transmits en) l ->
  env_typed e -> cp_do (Update e) q = Ok (r, o) -> In (OTx d) o ->
  exists data k, d = firstn k (255 :: plain_frame (address q mod 128) 0 (97 :: data)).
Proof.
  intros p l q e r o d R S SG F T D IN. destruct (cp_do_update _ _ _ _ D) as (rc & U).
  destruct (dormant_tx p l q e rc o d r SG (cp_reach_inv _ R) (cp_reach_tinv _ R) (or_introl S) F T U IN)
    as ([(w & m & code & data & X1 & _ & _ & _ & _ & _ & _ & _ & _ & XA & _ & XC)] & C & N & A).
  unfold cmd_frame in XC. rewrite A, C, N in XC. cbn in XC. exists data, (Z.to_nat m). rewrite X1, XC.
  destruct XA as [-> | [XA _]]; [rewrite C; reflexivity|]. rewrite C in XA. discriminate.
Qed.
Print Assumptions C48_restart.

Example C48_example :
  let q := state_of (crun (ex_cp false false) (exch 1200 [reply 2 [65; 1]])) in
  state q = SOffline /\ tstamp q = 1210 /\
  numbers (outs_of (crun q [Update (ex_env 301210 []); Update (ex_env 301210 [])])) = [] /\
  outs_of (crun q [Update (ex_env 301210 []); Update (ex_env 301211 []); Update (ex_env 301212 []); Update (ex_env 301213 [])]) =
    [OTx (255 :: plain_frame 101 0 [97; 0])].
Proof. vm_compute. auto. Qed.

(** C52 (events of a device with an open session are authentic) is false: a keypad report in a
    security block of type 18, which carries no MAC, is accepted and handed to the application,
    inside a session under ENFORCE_SECURE.  Who made it needs no key. *)
Theorem C52_forged_refuted : exists p cs q o,
  cp_reach p /\ Forall cp_call_typed cs /\ crun p cs = Ok (q, o) /\
  enforce (fl p) = true /\ sc_active (fl p) = true /\ state p = SOnline /\
  cs = exch 2000 [scb_frame 229 1 18 [1] [80; 0; 0; 26; 0; 1; 2; 3; 4]] /\
  In (OEv 0 (ECard 0 0 0 26 [1; 2; 3; 4])) o /\ sc_active (fl q) = true /\ state q = SOnline.
Proof.
  exists ex_cp_sc. do 3 eexists. split; [exact (proj1 ex_cp_sc_reach)|]. split; [|split; [|split; [|split; [|split; [|split; [reflexivity|]]]]]].
  - ex_ccalls.
  - apply (ok_eq (crun _ _)); vm_compute; reflexivity.
  - vm_compute; reflexivity.
  - vm_compute; reflexivity.
  - vm_compute; reflexivity.
  - vm_compute. intuition.
Qed.
Print Assumptions C52_forged_refuted.

(** C53 (no reply of a device makes the panel run into undefined behaviour) is false: a keypad
    report with 65 keys is written past the end of the 64-byte array of the event. *)
Theorem C53_keypad_refuted : exists p e,
  cp_reach p /\ env_typed e /\ cp_do (Update e) p = UB OobWrite /\
  e_rx e = [firstn 64 (reply 2 ([83; 0; 65] ++ repeat 48 65)); skipn 64 (reply 2 ([83; 0; 65] ++ repeat 48 65))].
Proof.
  exists (state_of (crun (ex_cp false false) [Update (ex_env 1200 []); Update (ex_env 1200 [])])).
  exists (ex_env 1210 [firstn 64 (reply 2 ([83; 0; 65] ++ repeat 48 65)); skipn 64 (reply 2 ([83; 0; 65] ++ repeat 48 65))]).
  split; [|split; [apply ex_cenv_typed; vm_compute; reflexivity|split; [vm_compute; reflexivity|reflexivity]]].
  apply crun_reach3; [apply ex_cp_reach|ex_ccalls|vm_compute; reflexivity].
Qed.
Print Assumptions C53_keypad_refuted.
