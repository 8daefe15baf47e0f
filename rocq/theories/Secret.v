(** C64: what a device and a panel send while a session is open. *)
From Verif Require Import Base ListLemmas Crc SpecCrc CrcProofs CrcBurst Aes AesProofs Rb RbProofs
  Types Sc ScProofs Phy PhyCheck File Pd SpecRx SpecFrame SpecSec SpecSession SpecCmd SpecApp MacProofs RxProofs RxFwd PdRx PdCore PhyTx PdTx PdReply
  PdStep PdWire PdFwd SpecPd PdRun PdSpeak PdPlain PdSec PdRefuse PdFacts PdKinds PdCase PdApp PdTrace PdHist PdHist2 PdAnswer PdMore WireSec SpecSay Frag PdAll
  SpecSecret.
From Coq Require Import ZifyBool ZifyNat.
Ltac Zify.zify_post_hook ::= Z.div_mod_to_equations.
Local Opaque aes_ecb_encrypt aes_cbc_encrypt aes_cbc_decrypt mac_of RB_SIZE osdp_mac enc1 cap_entries encrypt_data secure_frame secure_mac.

Lemma ctl8 p : Z.lor (pd_ctl p) 8 = 12 + seqn p mod 4.
Proof.
  destruct (pd_ctl_cases p) as [PC PE]. simpl in PC.
  assert (X : seqn p mod 4 = pd_ctl p - 4) by lia. rewrite X. destruct PC as [<-|[<-|[<-|[<-|[]]]]]; reflexivity.
Qed.

Lemma sent_in e f ok ot d : sent e f ok ot -> In (OTx d) ot -> exists k, d = firstn k f.
Proof.
  intros [(-> & _)|[(k & _ & -> & _)|(-> & _)]] IN; [destruct IN| |].
  - destruct IN as [X|[]]. injection X as <-. eauto.
  - destruct IN as [X|[]]. injection X as <-. exists (length f). rewrite firstn_all. reflexivity.
Qed.

Lemma build_rel_keys e p p2 : build_rel e p p2 -> in_sc_handshake true (reply_id p) = false -> sc p2 = sc p /\ fl p2 = fl p.
Proof.
  intros R H. unfold in_sc_handshake in H. unfold build_rel in R.
  destruct R as [->|[(_ & a & b & _ & ->)|[(_ & f & ->)|[(X & _)|[(X & _)|(X & _)]]]]]; auto; rewrite X in H; discriminate.
Qed.

(* what a transmission of an answer is made of *)
Lemma reply_parts e p q o d : env_ok e -> binv p -> reply_phase e p = Ok (q, o) -> In (OTx d) o ->
  exists p2 pay ss smb ob k, build_switch e (after_init p) smb (reply_room p) = Ok (p2, pay, ss, ob) /\ 60 <= reply_room p /\ smb = reply_smb p /\
    build_rel e (after_init p) p2 /\ d = firstn k (mk_of p ++ wire_of p2 (reply_body p pay ss)) /\
    zlen (wire_of p2 (reply_body p pay ss)) <= 256 /\
    (macced p2 (reply_body p pay ss) = true ->
       s_enc (sc q) = s_enc (sc p2) /\ s_mac1 (sc q) = s_mac1 (sc p2) /\ s_mac2 (sc q) = s_mac2 (sc p2) /\ c_mac (sc q) = c_mac (sc p2)) /\
    (macced p2 (reply_body p pay ss) = false ->
       client_uid (sc q) = client_uid (sc p2) /\ pd_random (sc q) = pd_random (sc p2) /\ pd_crypt (sc q) = pd_crypt (sc p2) /\ r_mac (sc q) = r_mac (sc p2)).
Proof.
  intros K IB H IN. destruct (reply_phase_cases e p q o K IB H) as (q1 & ok & RS & _ & _ & QQ).
  destruct RS as [(_ & _ & _ & ->)|(_ & p2 & pay & ss & m & smb & ob & ot & BS & Hm & (-> & SM) & BR & NT & TC & TY & -> & S)]; [destruct IN|].
  apply in_app_or in IN as [IN|IN]; [destruct (NT _ IN)|]. cbv zeta in S.
  destruct S as [(-> & _)|(LE & SE & SQ)]; [destruct IN|].
  destruct (sent_in _ _ _ _ _ SE IN) as (k & ->). exists p2, pay, ss, smb, ob, k. do 5 (split; [auto|]). split.
  { rewrite zlen_app in LE. pose proof (zlen_nonneg (mk_of p)). pose proof (tx_buf_le p) as TB. lia. }
  split; intros MC; rewrite MC in SQ;
  destruct QQ as [(-> & _)|(_ & _ & _ & k0 & _ & ->)]; unfold commit_key, sc_deactivate; simpl; rewrite SQ; auto.
Qed.

Lemma mk_cases p : mk_of p = [] \/ mk_of p = [255].
Proof. unfold mk_of; dif; auto. Qed.

Lemma ccrypt_pay e p m p2 pay ss o : build_ccrypt e p true m = Ok (p2, pay, ss, o) ->
  pay = Some (reply_id p2 :: client_uid (sc p2) ++ pd_random (sc p2) ++ pd_crypt (sc p2)) /\ exists b, ss = Some (18, b).
Proof.
  unfold build_ccrypt. cbn [negb]. intros BS. apply assert_len_ok in BS as [_ BS]. cbv zeta in BS. revert BS.
  generalize (compute_pd_cryptogram (compute_session_keys (set_pd_random (firstn 8 (e_rand e ++ zeros 8)) p))). intros p1 BS.
  inversion BS. subst. split; eauto.
Qed.

Lemma rmac_pay e p m p2 pay ss o : build_rmac e p true m = Ok (p2, pay, ss, o) ->
  pay = Some (reply_id p2 :: r_mac (sc p2)) /\ exists b, ss = Some (20, b).
Proof.
  unfold build_rmac. cbn [negb]. intros BS. apply assert_len_ok in BS as [_ BS]. cbv zeta in BS. revert BS.
  generalize (compute_rmac_i p). intros p1 BS. destruct (verify_cp_cryptogram p1); inversion BS; subst; simpl; split; eauto.
Qed.

Lemma switch_hs e p smb m : reply_id p = 118 \/ reply_id p = 120 ->
  build_switch e p smb m = if reply_id p =? 118 then build_ccrypt e p smb m else build_rmac e p smb m.
Proof.
  intros H. unfold build_switch. cbv zeta.
  unfold REPLY_ACK, REPLY_PDID, REPLY_PDCAP, REPLY_OSTATR, REPLY_ISTATR, REPLY_LSTATR, REPLY_RSTATR, REPLY_KEYPAD, REPLY_RAW, REPLY_COM, REPLY_NAK,
    REPLY_MFGREP, REPLY_FTSTAT, REPLY_CCRYPT, REPLY_RMAC_I.
  repeat match goal with |- (if reply_id p =? ?c then _ else _) = _ =>
    lazymatch c with 118 => fail | 120 => fail | _ => replace (reply_id p =? c) with false by (clear - H; lia) end end.
  destruct H as [H|H].
  - replace (reply_id p =? 118) with true by lia. reflexivity.
  - replace (reply_id p =? 118) with false by lia. replace (reply_id p =? 120) with true by lia. reflexivity.
Qed.

Lemma reply_hs e p q o d : env_ok e -> binv p -> in_sc_handshake true (reply_id p) = true -> reply_phase e p = Ok (q, o) -> In (OTx d) o ->
  exists mk w k, d = firstn k (mk ++ w) /\ (mk = [] \/ mk = [255]) /\ handshake_answer (sc q) w.
Proof.
  intros K IB HS H IN. destruct (reply_parts e p q o d K IB H IN) as (p2 & pay & ss & smb & ob & k & BS & Hm & SM & BR & -> & LW & _ & SQ).
  exists (mk_of p), (wire_of p2 (reply_body p pay ss)), k. split; [reflexivity|]. split; [apply mk_cases|].
  pose proof (build_switch_ok e (after_init p) smb (reply_room p) p2 pay ss ob (after_init_typed p (iv_ty p IB)) (eo_rand e K) Hm BS) as (_ & T2 & P & _ & SS).
  destruct (reply_body_facts e p pay ss (reply_room p) smb p2 ob (iv_ty p IB) (eo_rand e K) Hm BS SM) as (Bb & B0 & B1 & BL & B4 & MC & MC2).
  rewrite HS, andb_false_r in MC. destruct (SQ MC) as (Q1 & Q2 & Q3 & Q4).
  unfold handshake_answer. rewrite Q1, Q2, Q3, Q4.
  assert (RI : reply_id p = 118 \/ reply_id p = 120) by (clear - HS; unfold in_sc_handshake, REPLY_CCRYPT, REPLY_RMAC_I in HS; lia).
  assert (WIRE : forall ty b x, reply_body p pay ss = [83; pd_addr p; 0; 0; Z.lor (pd_ctl p) 8; 3; ty; b] ++ x -> zlen x <= 200 ->
    wire_of p2 (reply_body p pay ss) = handshake_frame (pd_addr p) (seqn p mod 4) ty b x).
  { intros ty b x E LX. unfold wire_of. rewrite MC, E. unfold handshake_frame. f_equal. unfold put_len, header.
    replace (zlen ([83; pd_addr p; 0; 0; Z.lor (pd_ctl p) 8; 3; ty; b] ++ x) + 2) with (zlen x + 10) by (rewrite zlen_app; unfold zlen; cbn [length]; lia).
    rewrite ctl8. pose proof (zlen_nonneg x). unfold byte0, byte1. rewrite (Z.mod_small ((zlen x + 10) / 256)) by lia. reflexivity. }
  assert (LEN : forall x, pay = Some x -> zlen x <= 134) by (intros x ->; destruct P as (_ & X & _); lia).
  assert (RID : forall c x, pay = Some (c :: x) -> c = reply_id p) by (intros c x ->; destruct P as (_ & _ & t & X); injection X as X _; exact X).
  rewrite SM, (reply_smb_hs p HS), (switch_hs e (after_init p) true (reply_room p) RI) in BS. change (reply_id (after_init p)) with (reply_id p) in BS.
  destruct RI as [RI|RI]; rewrite RI in BS; [change (118 =? 118) with true in BS|change (120 =? 118) with false in BS]; cbv iota in BS.
  - destruct (ccrypt_pay _ _ _ _ _ _ _ BS) as (E1 & b & E2).
    rewrite (RID _ _ E1), RI in E1.
    pose proof (LEN _ E1) as LX. change (118 :: ?x) with ([118] ++ x) in LX. rewrite zlen_app in LX. change (zlen [118]) with 1 in LX.
    exists (pd_addr p), (seqn p mod 4), b, (if sc_active (fl p) then [] else [118]). left.
    split; [|dif; auto]. apply WIRE; [|rewrite zlen_app; dif; unfold zlen in *; cbn [length] in *; lia].
    unfold reply_body. rewrite HS, E1, E2. dif; reflexivity.
  - destruct (rmac_pay _ _ _ _ _ _ _ BS) as (E1 & b & E2).
    rewrite (RID _ _ E1), RI in E1.
    pose proof (LEN _ E1) as LX. change (120 :: ?x) with ([120] ++ x) in LX. rewrite zlen_app in LX. change (zlen [120]) with 1 in LX.
    exists (pd_addr p), (seqn p mod 4), b, (if sc_active (fl p) then [] else [120]). right.
    split; [|dif; auto]. apply WIRE; [|rewrite zlen_app; dif; unfold zlen in *; cbn [length] in *; lia].
    unfold reply_body. rewrite HS, E1, E2. dif; reflexivity.
Qed.

(* an answer sent while the session is open *)
Lemma reply_sealed e p q o d : env_ok e -> binv p -> sc_active (fl p) = true -> reply_phase e p = Ok (q, o) -> In (OTx d) o ->
  exists mk w k, d = firstn k (mk ++ w) /\ (mk = [] \/ mk = [255]) /\ (sealed_answer (sc q) w \/ handshake_answer (sc q) w).
Proof.
  intros K IB A H IN. destruct (in_sc_handshake true (reply_id p)) eqn:HS.
  { destruct (reply_hs e p q o d K IB HS H IN) as (mk & w & k & X & Y & Z). exists mk, w, k. auto. }
  destruct (reply_parts e p q o d K IB H IN) as (p2 & pay & ss & smb & ob & k & BS & Hm & SM & BR & -> & LW & SQ & _).
  exists (mk_of p), (wire_of p2 (reply_body p pay ss)), k. split; [reflexivity|]. split; [apply mk_cases|]. left.
  pose proof (build_switch_ok e (after_init p) smb (reply_room p) p2 pay ss ob (after_init_typed p (iv_ty p IB)) (eo_rand e K) Hm BS) as (_ & T2 & P & _ & SS).
  destruct (reply_body_facts e p pay ss (reply_room p) smb p2 ob (iv_ty p IB) (eo_rand e K) Hm BS SM) as (Bb & B0 & B1 & BL & B4 & MC & MC2).
  pose proof T2 as (_ & _ & _ & (KO & _) & _). rewrite A, HS in MC. cbn [andb negb] in MC. destruct (SQ MC) as (Q1 & Q2 & Q3 & Q4).
  destruct (build_rel_keys e (after_init p) p2 BR HS) as (KE & FE). change (sc (after_init p)) with (sc p) in KE.
  assert (LO : last_out p2 = c_mac (sc p2)). { unfold last_out. rewrite FE. change (pd_mode (fl (after_init p))) with (pd_mode (fl p)). rewrite (iv_mode p IB). reflexivity. }
  pose proof (iv_ty p IB) as TP. pose proof (byte_pd_addr p) as Ba. pose proof (Z.mod_pos_bound (seqn p) 4 ltac:(lia)) as SR.
  unfold sealed_answer. exists (pd_addr p), (seqn p mod 4).
  unfold reply_body in *. rewrite HS, A in *. rewrite ctl8 in *.
  destruct pay as [dd|].
  + destruct P as (BD & _ & t & ->). inversion BD as [|? ? Bc Bt]; subst. exists (reply_id (after_init p)), t.
    rewrite Q1, Q2, Q3, Q4, <- LO. destruct t as [|x t].
    * right. split; [auto|]. refine (proj1 (wire_secure p2 (pd_addr p) (seqn p mod 4) 22 (reply_id (after_init p)) [] _ Ba _ _ Bc KO MC LW)); [constructor|lia|unfold byte; lia].
    * left. split; [discriminate|]. refine (proj1 (wire_secure p2 (pd_addr p) (seqn p mod 4) 24 (reply_id (after_init p)) (x :: t) Bt Ba _ _ Bc KO MC LW)); [lia|unfold byte; lia].
  + exists 65, [9]. rewrite Q1, Q2, Q3, Q4, <- LO. right. split; [auto|].
    refine (proj1 (wire_secure p2 (pd_addr p) (seqn p mod 4) 22 65 [9] _ Ba _ _ _ KO MC LW)); [repeat constructor; lia|lia|unfold byte; lia|unfold byte; lia].
Qed.

(* a refusal sent when the session is gone *)
Lemma reply_clear e c p0 q o d : let p := nak c p0 in env_ok e -> binv p -> sc_active (fl p) = false -> reply_phase e p = Ok (q, o) -> In (OTx d) o ->
  exists mk w k, d = firstn k (mk ++ w) /\ (mk = [] \/ mk = [255]) /\ clear_nak w.
Proof.
  intros p K IB A H IN. destruct (reply_parts e p q o d K IB H IN) as (p2 & pay & ss & smb & ob & k & BS & Hm & SM & BR & -> & LW & SQ & _).
  exists (mk_of p), (wire_of p2 (reply_body p pay ss)), k. split; [reflexivity|]. split; [apply mk_cases|].
  assert (PY : p2 = after_init p /\ pay = Some [65; c]).
  { revert BS. unfold build_switch. cbv zeta. change (reply_id (after_init p)) with 65. change (eph (after_init p)) with (EphNak c).
    cbn -[assert_len]. intros X. apply assert_len_ok in X as [_ X]. inv X. auto. }
  destruct PY as (-> & ->).
  pose proof (build_switch_ok e (after_init p) smb (reply_room p) _ _ ss ob (after_init_typed p (iv_ty p IB)) (eo_rand e K) Hm BS) as (_ & T2 & (P & _) & _).
  unfold reply_body in *. rewrite A in *. change (in_sc_handshake true (reply_id p)) with false in *. cbv iota in *.
  exists (pd_addr p), (seqn p mod 4), c. apply wire_plain; auto.
  change (zlen [65; c]) with 2. lia.
Qed.

(* how a session can end while a packet is handled *)
Lemma decode_drops p q r : decode_packet p = Ok (q, r) -> pd_mode (fl p) = true -> sc_active (fl p) = true -> sc_active (fl q) = false ->
  exists c x, q = nak c x.
Proof.
  intros D M A N. revert D. unfold decode_packet. rewrite M, A. cbv zeta.
  destruct (ctl_scb _).
  - destruct (_ && _); [intros D; inv D; eauto|]. destruct (_ || _); [intros D; inv D; eauto|]. cbn [negb andb].
    match goal with |- context [if ?b then set_use_scbkd true p else p] => set (p1 := if b then set_use_scbkd true p else p) end.
    assert (A1 : sc_active (fl p1) = true) by (unfold p1; dif; exact A).
    destruct (SCS_15 <=? _).
    + unfold decode_secure. intros D. apply bind_inv in D as (p3 & CM & D). cbv zeta in D.
      assert (A3 : sc_active (fl p3) = true).
      { revert CM. unfold compute_mac. intros CM. repeat (match type of CM with (if ?b then _ else _) = _ => destruct b end; try discriminate); inv CM; (exact A1 || (destruct (pd_mode (fl p1)); exact A1)). }
      repeat (match type of D with (if ?b then _ else _) = _ => destruct b eqn:? end; try (inv D; eauto; fail); try discriminate).
      * destruct (decrypt_data _ _ _ _) as [[d m]|]; [|inv D; eauto]. inv D. simpl in N. congruence.
      * inv D. congruence.
    + intros D. inv D. congruence.
  - intros D. inv D. eauto.
Qed.

Lemma case_drops e p c d q r o : dec_case e p c d q r o -> sc_active (fl p) = true -> sc_active (fl q) = false -> reply_id q = 118 /\ r = RNone.
Proof.
  intros H A N. inversion H; subst; clear H;
    try (match goal with X : do_records _ _ _ _ = _ |- _ => apply records_outs in X as [_ X]; destruct X as [->|(k & ->)] end);
    try (match goal with X : file_tx_abort _ = _ |- _ => apply file_tx_abort_core in X as [(ff & ->) _] end);
    try (match goal with X : file_tx_decode _ _ _ = _ |- _ => pose proof (file_tx_decode_core _ _ _ _ _ _ X) as [(ff & ->) _] end);
    try (simpl in N; congruence).
  - revert N. unfold translate_event. destruct (event_reply ev =? 0); simpl; congruence.
  - auto.
Qed.

Lemma command_drops e p c d q r o : decode_command e p (c :: d) = Ok (q, r, o) -> sc_active (fl p) = true -> sc_active (fl q) = false ->
  reply_id q = 118 /\ r = RNone.
Proof.
  intros H A N. destruct (command_case _ _ _ _ _ _ _ H) as (_ & [(k & _ & -> & _)|[(q1 & D & _ & -> & _)|(_ & D)]]).
  - simpl in N. congruence.
  - change (sc_active (fl q1) = false) in N. destruct (case_drops _ _ _ _ _ _ _ D A N) as (_ & X). discriminate.
  - exact (case_drops _ _ _ _ _ _ _ D A N).
Qed.

Lemma bumped_active e p : sc_active (fl (bumped e p)) = sc_active (fl p).
Proof. unfold bumped. destruct (sc_active (fl p)) eqn:E; [exact E|exact E]. Qed.

(* what leaves a device whose session is open when it reads a packet that does not restart the numbering *)
Lemma device_says e p f rest q o d : env_ok e -> pd_inv p -> next_frame e p f rest -> session_open e p = true -> f_seq f <> 0 ->
  pd_refresh e p = Ok (q, o) -> In (OTx d) o ->
  exists mk w k, d = firstn k (mk ++ w) /\ (mk = [] \/ mk = [255]) /\
    (sealed_answer (sc q) w \/ handshake_answer (sc q) w \/ (clear_nak w /\ sc_active (fl q) = false)).
Proof.
  intros K I N SO S0 H IN. rewrite <- session_open_eq in SO.
  destruct (frame_verdict e p f rest K I N) as (p1 & R & Ef & Rr & Sy & I1 & F1 & Bf & _ & X1 & X2 & X3 & X4).
  assert (A1 : sc_active (fl (pd_seen f p1)) = true).
  { unfold pd_seen. cbv zeta. replace (f_seq f =? 0) with false by lia.
    transitivity (sc_active (fl p1)); [destruct (f_addr f =? 127); reflexivity|]. rewrite <- SO. exact (f_equal (fun x => sc_active (fl x)) R). }
  assert (Bs : binv (pd_seen f p1)) by (apply binv_seen; auto).
  assert (FS : full (pd_seen f p1)) by (apply full_seen; auto).
  assert (SEAL : forall pr q1 o1, binv pr -> sc_active (fl pr) = true -> reply_phase e pr = Ok (q1, o1) -> In (OTx d) o1 ->
    exists mk w k, d = firstn k (mk ++ w) /\ (mk = [] \/ mk = [255]) /\ (sealed_answer (sc q1) w \/ handshake_answer (sc q1) w \/ (clear_nak w /\ sc_active (fl q1) = false))).
  { intros pr q1 o1 B A RP IN1. destruct (reply_sealed e pr q1 o1 d K B A RP IN1) as (mk & w & k & Y1 & Y2 & Y3). exists mk, w, k. tauto. }
  assert (L6 : 6 <= zlen f) by (destruct N as ((_ & _ & _ & L) & _); lia).
  destruct (core_ids _ _ R) as (C1 & C2 & _). destruct (timeout_ids e p) as (T1 & T2 & _).
  pose proof (pd_frame p1 f (iv_mode p1 I1) (iv_skip p1 I1) (iv_seq p1 I1) Bf L6) as V. rewrite C1, C2, T1, T2 in V.
  clear Ef. destruct V as [(V & _)|[(V & M & _)|[(V & M & S & _)|(V & M & S & _)]]].
  - rewrite (X1 V) in H. inv H. destruct IN.
  - rewrite (X2 V M) in H. inv H. destruct IN.
  - rewrite (X4 V M S) in H. clear X1 X2 X3 X4.
    apply bind_inv in H as (y & RK & H). cbn [rap_k] in RK. apply bind_inv in RK as ([p2 r] & DP & RK).
    destruct (decode_packet_inv _ _ _ Bs FS DP) as (B2 & F2 & B3).
    assert (ERR : forall o2, reply_phase e p2 = Ok (q, o2) -> In (OTx d) o2 ->
      exists mk w k, d = firstn k (mk ++ w) /\ (mk = [] \/ mk = [255]) /\ (sealed_answer (sc q) w \/ handshake_answer (sc q) w \/ (clear_nak w /\ sc_active (fl q) = false))).
    { intros o2 RP IN2. destruct (sc_active (fl p2)) eqn:A2; [exact (SEAL _ _ _ B2 A2 RP IN2)|].
      destruct (decode_drops _ _ _ DP (iv_mode _ Bs) A1 A2) as (c & x & ->).
      destruct (reply_clear e c x q o2 d K B2 A2 RP IN2) as (mk & w & k & Y1 & Y2 & Y3). exists mk, w, k. split; auto. split; auto. right; right. split; auto.
      destruct (reply_phase_cases e _ _ _ K B2 RP) as (q1 & ok & RS & _ & _ & QQ).
      assert (AQ : sc_active (fl q1) = false).
      { destruct RS as [(_ & -> & _)|(_ & p3 & pay & ss & m & smb & ob & ot & _ & _ & _ & BR & _ & TC & _)]; [exact A2|].
        transitivity (sc_active (fl p3)); [exact (f_equal (fun x => sc_active (fl x)) TC)|].
        destruct (build_rel_keys _ _ _ BR eq_refl) as (_ & ->). exact A2. }
      destruct QQ as [(-> & _)|(_ & _ & _ & k0 & _ & ->)]; [exact AQ|reflexivity]. }
    destruct r as [c|l].
    + destruct (c =? -6); inv RK; cbn [pd_finish] in H; [|inv H; destruct IN].
      apply bind_inv in H as ([q1 o2] & RP & H). inv H. exact (ERR _ RP IN).
    + destruct B3 as (Bl & NL). destruct l as [|c l]; [congruence|]. destruct y as [[p3 rr] oc].
      destruct (decode_command_inv e p2 _ p3 rr oc K Bl B2 RK) as (I3 & _).
      destruct (decode_command_core e p2 _ _ _ _ RK) as (CC & _ & NT & _ & R1 & R2 & R3).
      destruct (decode_packet_core _ _ _ (iv_mode _ Bs) DP) as (_ & _ & _ & _ & _ & _ & _ & _ & _ & _ & _ & _ & A2). rewrite A1 in A2.
      assert (GO : forall pr o2, binv pr -> sc_active (fl pr) = sc_active (fl p3) -> reply_id pr = reply_id p3 -> reply_phase e pr = Ok (q, o2) -> In (OTx d) (oc ++ o2) ->
        exists mk w k, d = firstn k (mk ++ w) /\ (mk = [] \/ mk = [255]) /\ (sealed_answer (sc q) w \/ handshake_answer (sc q) w \/ (clear_nak w /\ sc_active (fl q) = false))).
      { intros pr o2 BP AP RI RP IN2. apply in_app_or in IN2 as [IN2|IN2]; [destruct (NT _ IN2)|].
        destruct (sc_active (fl p3)) eqn:A3; [exact (SEAL _ _ _ BP AP RP IN2)|].
        destruct (command_drops _ _ _ _ _ _ _ RK A2 A3) as (E & _). rewrite E in RI.
        destruct (reply_hs e pr q o2 d K BP) as (mk & w & k & Y1 & Y2 & Y3); auto; [rewrite RI; reflexivity|]. exists mk, w, k. auto. }
      unfold pd_finish in H. destruct rr; try congruence.
      * apply bind_inv in H as ([q1 o2] & RP & H). inv H. apply (GO (bumped e p3) o2); auto; [apply binv_bumped; auto|apply bumped_active|unfold bumped; dif; reflexivity].
      * destruct (_ <? _); inv H; destruct (NT _ IN).
      * apply bind_inv in H as ([q1 o2] & RP & H). inv H. apply (GO p3 o2); auto.
  - rewrite (X3 V M S) in H. apply (SEAL (nak 4 (pd_seen f p1)) q o); auto. apply binv_nak; auto. unfold byte; lia.
Qed.
