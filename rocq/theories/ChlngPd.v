(** PD: session keys are made only for a received challenge, with a number drawn at that moment. *)
From Verif Require Import Base ListLemmas Crc SpecCrc CrcProofs CrcBurst Aes AesProofs Rb RbProofs
  Types Sc ScProofs Phy PhyCheck File Pd SpecRx SpecFrame SpecSec SpecReply SpecCmd SpecApp MacProofs RxProofs RxFwd PdRx PdCore PhyTx PdTx PdReply
  PdStep PdWire PdFwd SpecPd PdRun PdSpeak PdPlain PdSec PdRefuse PdFacts PdKinds PdCase PdApp PdTrace PdHist PdHist2 WireSec SaysProofs PdMore SpecHeard HeardPd.
From Coq Require Import ZifyBool ZifyNat.
Ltac Zify.zify_post_hook ::= Z.div_mod_to_equations.
Local Opaque aes_ecb_encrypt aes_cbc_encrypt aes_cbc_decrypt mac_of RB_SIZE osdp_mac enc1 cap_entries.

(* in this call a CHLNG with the eight bytes x came in *)
Definition chlng_in (en : entry) (x : list Z) : Prop :=
  exists e, en_call en = Refresh e /\ heard_command e (en_pd en) (118 :: x) /\ zlen x = 8.
Definition chl_inv (h : list entry) (p : pd) : Prop :=
  reply_id p = 118 -> exists en, In en h /\ chlng_in en (cp_random (sc p)).

Lemma case_chlng e p c d q r o : dec_case e (set_cmd_id c (set_reply_id 0 p)) c d q r o -> reply_id q = 118 ->
  c = 118 /\ zlen d = 8 /\ cp_random (sc q) = d.
Proof.
  intros H. inversion H; subst; clear H;
    try (match goal with X : do_records _ _ _ _ = _ |- _ => apply records_outs in X as [_ X]; destruct X as [->|(k & ->)] end);
    try (match goal with X : file_tx_abort _ = _ |- _ => apply file_tx_abort_core in X as [(ff & ->) _] end);
    try (match goal with X : file_tx_decode _ _ _ = _ |- _ => pose proof (file_tx_decode_core _ _ _ _ _ _ X) as [(ff & ->) _] end);
    try (match goal with X : status_cmd _ _ _ |- _ => destruct X as [(-> & -> & ->)|[(-> & -> & ->)|[(-> & -> & ->)|(-> & -> & ->)]]] end);
    try (match goal with X : multi_cmd _ _ _ |- _ => destruct X as [(-> & -> & ->)|[(-> & -> & ->)|(-> & -> & ->)]] end);
    try (match goal with X : _ \/ _ |- _ => destruct X as [(-> & -> & X & ->)|[(-> & X & ->)|(-> & X & ->)]] end).
  all: try (simpl; try discriminate; try congruence; try tauto; auto 10; fail).
  pose proof (event_codes ev _ eq_refl) as EC. unfold translate_event. destruct (event_reply ev =? 0) eqn:Z0; simpl; try discriminate; try congruence; try tauto.
Qed.
Lemma command_chlng e p c d q r o : decode_command e p (c :: d) = Ok (q, r, o) -> reply_id q = 118 -> c = 118 /\ zlen d = 8 /\ cp_random (sc q) = d.
Proof.
  intros H. destruct (command_case _ _ _ _ _ _ _ H) as (_ & [(k & Hk & -> & -> & ->)|[(q1 & D & NO & -> & ->)|(NG & D)]]).
  - discriminate.
  - discriminate.
  - exact (case_chlng _ _ _ _ _ _ _ D).
Qed.

Lemma near_rnd e p pr : near (sc_timeout e p) pr -> nak_or_same (sc_timeout e p) pr -> reply_id pr = 118 ->
  reply_id p = 118 /\ cp_random (sc pr) = cp_random (sc p).
Proof.
  intros N S R. destruct (near_fields _ _ N) as (_ & _ & _ & _ & _ & _ & _ & _ & _ & _ & _ & _ & F & _).
  destruct (timeout_fields e p) as (_ & _ & _ & _ & _ & _ & _ & _ & T1 & _ & _ & _ & T2 & _).
  destruct S as [(Y & _)|(Y & _)]; split; congruence.
Qed.

(* the keys of a session and the number of the device, osdp_common.h:354-364 *)
Definition sess_of (p : pd) : list Z * list Z * list Z * list Z := (s_enc (sc p), s_mac1 (sc p), s_mac2 (sc p), pd_random (sc p)).
Lemma same_sess p q : samecore q = samecore p -> sess_of q = sess_of p.
Proof. intros H. unfold sess_of. apply (f_equal snd) in H. cbn [snd samecore] in H. congruence. Qed.
Lemma cmd_sess e p l q r o : decode_command e p l = Ok (q, r, o) -> sess_of q = sess_of p.
Proof. intros H. destruct (decode_command_core _ _ _ _ _ _ H) as (R & _). exact (f_equal (fun x => sess_of x) R). Qed.
Lemma near_sess e p pr : near (sc_timeout e p) pr -> sess_of pr = sess_of p /\ scbk (sc pr) = scbk (sc p).
Proof.
  intros N. assert (R := proj1 N).
  assert (M1 : s_mac1 (sc pr) = s_mac1 (sc (sc_timeout e p))) by exact (f_equal (fun x => s_mac1 (sc x)) R).
  assert (M2 : s_mac2 (sc pr) = s_mac2 (sc (sc_timeout e p))) by exact (f_equal (fun x => s_mac2 (sc x)) R). unfold sess_of.
  destruct (near_fields _ _ N) as (_ & _ & _ & _ & _ & _ & _ & _ & F1 & _ & _ & _ & _ & _ & F2 & F3 & _).
  destruct (timeout_fields e p) as (_ & _ & _ & _ & _ & _ & _ & _ & T1 & _). rewrite T1 in *. split; [congruence|auto].
Qed.

Lemma cmd_chlng e p o f rest p1 p2 c d p3 r oc : heard_frame e p f rest -> seq_ok (seqn p) (f_seq f) -> frame_of p1 = f ->
  rxcore p1 = rxcore (sc_timeout e p) -> binv (pd_seen f p1) -> full (pd_seen f p1) ->
  decode_packet (pd_seen f p1) = Ok (p2, DData (c :: d)) ->
  decode_command e p2 (c :: d) = Ok (p3, r, oc) -> reply_id p3 = 118 -> chlng_in (mkEntry p (Refresh e) o) (cp_random (sc p3)).
Proof.
  intros HF SQ FO RX BS FS DP DC R. destruct (command_chlng _ _ _ _ _ _ _ DC R) as (-> & L & E).
  exists e. split; [reflexivity|]. rewrite E. split; [|exact L]. exists f, rest. split; auto. split; auto. simpl.
  assert (FE : frame_of (pd_seen f p1) = f). { rewrite <- FO at 2. unfold pd_seen. cbv zeta. destruct (f_addr f =? 127), (f_seq f =? 0); reflexivity. }
  destruct (core_view _ _ RX) as (_ & R2 & R3 & _). destruct (seen_view f p1) as (_ & V2 & V3 & _).
  assert (SC : sc (pd_seen f p1) = sc p). { rewrite V2, R2. apply (timeout_fields e p). }
  pose proof (decode_says _ _ _ DP (iv_rxb _ BS) FS ltac:(intros _; apply (iv_ty _ BS))) as X.
  unfold last_in in X. rewrite (iv_mode _ BS), FE, SC, V3, R3, session_open_eq in X. exact X.
Qed.

Lemma chl_step e i n h p q o : pd_runs i n h p -> call_typed (Refresh e) -> pd_refresh e p = Ok (q, o) -> chl_inv h p ->
  chl_inv (mkEntry p (Refresh e) o :: h) q /\
  (sess_of q = sess_of p \/
   (pd_random (sc q) = firstn 8 (e_rand e ++ zeros 8) /\
    (exists en, In en (mkEntry p (Refresh e) o :: h) /\ chlng_in en (cp_random (sc q))) /\
    exists base, (base = scbk (sc p) \/ base = scbk_default) /\ s_enc (sc q) = enc1 base (session_block 1 130 (cp_random (sc q))))).
Proof.
  intros R T H KI. pose proof (run_step e i n h p q o R T H) as SK.
  destruct SK as [pr N S -> SC SA|f rest pr HF N S B RP AR QO|f rest p1 p2 c d p3 HF SQ FO RX BS FS DP BL N2 DC SC SA|
    f rest p1 p2 c d p3 r oc p4 o2 HF SQ FO RX BS FS DP BL N2 DC PR B4 RP AR QO EO].
  - destruct (same_fields _ _ SC) as ((AC & _) & _). apply same_sess in SC. destruct (ans_fields _ _ AC) as (_ & (_ & _ & _ & X2) & _ & (X3 & _)).
    destruct (near_sess e p pr N) as (N1 & _). split; [|left; congruence].
    intros Y. destruct (near_rnd e p pr N S ltac:(congruence)) as (Y1 & Y2). destruct (KI Y1) as (en & I & K).
    exists en. split; [right; exact I|]. rewrite X3, Y2. exact K.
  - destruct AR as [C _ _ _ SS _ _]. destruct (ans_fields _ _ C) as (_ & (_ & _ & _ & X2) & _ & (X3 & _)).
    destruct (near_sess e p pr N) as (N1 & N4).
    assert (G : reply_id pr = 118 -> exists en, In en (mkEntry p (Refresh e) o :: h) /\ chlng_in en (cp_random (sc q))).
    { intros Y. destruct (near_rnd e p pr N S Y) as (Y1 & Y2). destruct (KI Y1) as (en & I & K). exists en. split; [right; exact I|]. rewrite X3, Y2. exact K. }
    split; [intros Y; apply G; congruence|].
    destruct SS as [(S1 & SM1 & SM2 & S4)|(S1 & S2 & S3)]; [left; unfold sess_of in *; congruence|].
    right. split; [exact S2|]. split; [exact (G S1)|].
    exists (if use_scbkd (fl pr) then scbk_default else scbk (sc pr)). split; [destruct (use_scbkd (fl pr)); auto|]. rewrite X3. exact S3.
  - destruct (same_fields _ _ SC) as ((AC & _) & _). apply same_sess in SC. destruct (ans_fields _ _ AC) as (_ & (_ & _ & _ & X2) & _ & (X3 & _)).
    destruct (near_sess e p p2 N2) as (N1 & _). pose proof (cmd_sess _ _ _ _ _ _ DC) as G2.
    split; [|left; congruence].
    intros Y. exists (mkEntry p (Refresh e) o). split; [left; reflexivity|]. rewrite X3.
    apply (cmd_chlng e p o f rest p1 p2 c d p3 RWait o); auto; congruence.
  - assert (P4 : anscore p4 = anscore p3 /\ fl p4 = fl p3 /\ sc p4 = sc p3).
    { destruct PR as [(_ & ->)|(_ & ->)]; auto. destruct (bumped_fields e p3) as (Y1 & (_ & _ & _ & Y2 & Y3) & _). auto. }
    destruct P4 as (P1 & P2 & P3). destruct (ans_fields _ _ P1) as (_ & (_ & _ & _ & Z2) & _ & _).
    destruct (near_sess e p p2 N2) as (N1 & N4). destruct (cmd_fields _ _ _ _ _ _ DC) as (_ & _ & (G1 & _) & _). pose proof (cmd_sess _ _ _ _ _ _ DC) as G2.
    destruct AR as [C _ _ _ SS _ _]. destruct (ans_fields _ _ C) as (_ & (_ & _ & _ & X2) & _ & (X3 & _)).
    assert (G : reply_id p4 = 118 -> exists en, In en (mkEntry p (Refresh e) o :: h) /\ chlng_in en (cp_random (sc q))).
    { intros Y. exists (mkEntry p (Refresh e) o). split; [left; reflexivity|]. rewrite X3, P3.
      apply (cmd_chlng e p o f rest p1 p2 c d p3 r oc); auto; congruence. }
    split; [intros Y; apply G; congruence|].
    destruct SS as [(S1 & SM1 & SM2 & S4)|(S1 & S2 & S3)]; [left; unfold sess_of in *; congruence|].
    right. split; [exact S2|]. split; [exact (G S1)|].
    exists (if use_scbkd (fl p4) then scbk_default else scbk (sc p4)). split; [destruct (use_scbkd (fl p4)); [auto|left; congruence]|]. rewrite X3. exact S3.
Qed.

Lemma chl_runs i n h p : pd_runs i n h p -> chl_inv h p.
Proof.
  intros R. induction R as [p T S|h p c q o R IH T D].
  - intros X. destruct (setup_fresh i n p S) as ((Y & _) & _). congruence.
  - destruct (other_call _ _ _ _ D) as [(e & ->)|(O & _)].
    + apply (chl_step e i n h p q o R T D IH).
    + destruct (other_fields _ _ O) as ((O1 & _ & _ & O4 & _) & _). intros X. rewrite O4. destruct (IH ltac:(congruence)) as (en & I & K). exists en. simpl; auto.
Qed.
